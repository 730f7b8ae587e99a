(** Lemmas about the connectivity manager: the order of the attempts, exceptions, and what is kept over a restart. *)
From Coq Require Import ZArith List Bool String Ascii Lia Arith.
From Verif Require Import StrModel StrSpec StrProofs StrProperties JsonModel JsonProofs DmSpec ConnModel ConnSpec ConnProofs.
Import ListNotations.
Local Open Scope string_scope.
Local Open Scope Z_scope.

Lemma has_colon_ok s : has_colon s = false <-> ~ In ":"%char (list_ascii_of_string s).
Proof.
  induction s as [|c s IH]; cbn; [tauto|]. rewrite orb_false_iff, IH.
  destruct (Ascii.eqb_spec c ":"); [subst|]; intuition congruence.
Qed.

Lemma offered_congr s s' x p : cache s' = cache s -> allow_zero_level s' = allow_zero_level s -> offered s x p -> offered s' x p.
Proof. unfold offered. intros -> ->. auto. Qed.

Lemma next_slot_index l k x : nth_error l k = Some x -> NoDup l -> next_slot l x = Ret (nth (Nat.modulo (S k) (List.length l)) l 0).
Proof.
  intros H N. unfold next_slot. rewrite (index_of_nodup _ _ _ N H). unfold slot_at.
  rewrite (nth_error_nth' l 0); [reflexivity|]. apply Nat.mod_upper_bound. destruct l; [destruct k; discriminate|discriminate].
Qed.

Lemma try_connect_level s e slot p i : has_colon (station_id s) = false -> last_level s = dm_level s -> (prio s < List.length (slots s))%nat ->
  pending s = Some slot -> index_of slot (slots s) = Some i -> get_profile s slot = Some p ->
  try_connect s e =
    if e_url e p && e_cfg e p
    then Ret (set_started s i (if w_active e then Some slot else dm_active s), [Tried slot; Start p])
    else Ret (if wants s then set_timer s (Some (TryNextOf slot)) else s, [Tried slot]).
Proof.
  intros C L P Pe I G. unfold try_connect, check_cache, active_slot, slot_at. rewrite C, L, Z.eqb_refl. cbn [bind].
  destruct (nth_error (slots s) (prio s)) as [a|] eqn:A; [|apply nth_error_None in A; lia].
  cbn [bind]. rewrite Pe, G, I. destruct (e_url e p && e_cfg e p); reflexivity.
Qed.

Definition same_config (s s' : cm) : Prop :=
  slots s' = slots s /\ cache s' = cache s /\ allow_zero_level s' = allow_zero_level s /\ dm_level s' = dm_level s /\
  last_level s' = last_level s /\ station_id s' = station_id s /\ wants s' = wants s.

Lemma in_order_congr s s' : same_config s s' -> (prio s' < List.length (slots s'))%nat -> in_order s -> in_order s'.
Proof.
  intros (E1 & E2 & E3 & E4 & E5 & E6 & E7) P [A B C D E F]. constructor; try congruence.
  intros x I. rewrite E1 in I. destruct (E x I) as [p H]. exists p. eapply offered_congr; [..|exact H]; auto.
Qed.

Lemma attempt s e x k : in_order s -> waiting s x -> nth_error (slots s) k = Some x ->
  exists s1 p, let y := nth (Nat.modulo (S k) (List.length (slots s))) (slots s) 0 in
    offered s y p /\ in_order s1 /\ same_config s s1 /\
    on_timer s e = Ret (s1, Tried y :: if e_url e p && e_cfg e p then [Start p] else []) /\
    (if e_url e p && e_cfg e p then nth_error (slots s1) (prio s1) = Some y /\ timer s1 = None else waiting s1 y) /\
    nth_error (slots s) (Nat.modulo (S k) (List.length (slots s))) = Some y.
Proof.
  intros IO W K. assert (IO' := IO). destruct IO' as [A B C D E F]. set (n := List.length (slots s)) in *.
  assert (NZ : n <> O) by (unfold n; lia).
  assert (M := Nat.mod_upper_bound (S k) n NZ).
  set (y := nth (Nat.modulo (S k) n) (slots s) 0).
  assert (NY : nth_error (slots s) (Nat.modulo (S k) n) = Some y) by (apply nth_error_nth'; auto).
  destruct (E y) as [p P]; [eapply nth_error_In; eauto|].
  assert (X : on_timer s e = try_connect (set_pending (set_timer s None) (Some y)) e).
  { assert (NS : next_slot (slots (set_timer s None)) x = Ret y) by (apply next_slot_index; auto).
    unfold on_timer. destruct W as [T|r T R N].
    - rewrite T, NS. reflexivity.
    - rewrite T. assert (AS : active_slot (set_timer s None) = Ret x) by (unfold active_slot, slot_at; cbn; rewrite N; reflexivity).
      destruct r; try congruence; rewrite AS; cbn [bind]; rewrite NS; reflexivity. }
  assert (P' := P). apply get_profile_ok in P'.
  rewrite (try_connect_level _ _ y p (Nat.modulo (S k) n)) in X; cbn; auto.
  2:{ cbn. apply has_colon_ok. auto. }
  2:{ cbn. apply index_of_nodup; auto. }
  cbn [wants set_pending set_slots set_timer] in X. rewrite A in X.
  destruct (e_url e p && e_cfg e p) eqn:U.
  - eexists _, p. rewrite X, U. repeat match goal with |- _ /\ _ => split end; try reflexivity; auto.
    + eapply in_order_congr; [..|exact IO]; [repeat split|]. cbn. exact M.
    + repeat split.
  - eexists _, p. rewrite X, U. repeat match goal with |- _ /\ _ => split end; try reflexivity; auto.
    + eapply in_order_congr; [..|exact IO]; [repeat split|]. exact F.
    + repeat split.
    + apply waiting_failed. reflexivity.
Qed.

Lemma same_config_trans a b c : same_config a b -> same_config b c -> same_config a c.
Proof. unfold same_config. intuition congruence. Qed.

Lemma round_congr s s' : slots s' = slots s -> cache s' = cache s -> allow_zero_level s' = allow_zero_level s ->
  forall k l ev, round s k l ev -> round s' k l ev.
Proof.
  intros E1 E2 E3 k l ev R. induction R; constructor; auto.
  - rewrite E1. auto.
  - eapply offered_congr; [..|eassumption]; auto.
Qed.

Lemma mod_succ k n : n <> O -> Nat.modulo (S (Nat.modulo k n)) n = Nat.modulo (S k) n.
Proof.
  intros N. rewrite <- (Nat.add_1_l (Nat.modulo k n)), <- (Nat.add_1_l k). rewrite Nat.add_mod_idemp_r; auto.
Qed.

Lemma round_mod s n : n = List.length (slots s) -> n <> O -> forall k l ev, round s k l ev -> forall k', Nat.modulo k' n = Nat.modulo k n -> round s k' l ev.
Proof.
  intros -> N k l ev R. induction R; intros k' E; [constructor|].
  econstructor; [|eassumption|].
  - rewrite E. assumption.
  - apply IHR. rewrite <- (mod_succ k'), <- (mod_succ k), E; auto.
Qed.

Lemma failing_ok : forall l s x k, in_order s -> waiting s x -> nth_error (slots s) k = Some x ->
  Forall (fun er => snd er <> ServiceRestart) l ->
  exists s' ev, failing s l = Ret (s', ev) /\ round s (S k) l ev /\ in_order s' /\ same_config s s' /\ exists y, waiting s' y /\ In y (slots s').
Proof.
  induction l as [|[e r] l IH]; intros s x k IO W K F.
  - exists s, []. repeat match goal with |- _ /\ _ => split end; auto; [constructor|repeat split|].
    exists x. split; auto. eapply nth_error_In; eauto.
  - inversion F as [|? ? Fr Fl]; subst. cbn [snd] in Fr.
    destruct (attempt s e x k IO W K) as (s1 & p & P & IO1 & SC & T & Z & NY).
    set (y := nth _ (slots s) 0) in *. set (n := List.length (slots s)) in *.
    assert (NZ : n <> O) by (unfold n; destruct (slots s); [destruct k; discriminate|discriminate]).
    cbn [failing step]. rewrite T.
    assert (CONT : forall s2, in_order s2 -> waiting s2 y -> same_config s s2 ->
      exists s' ev, failing s2 l = Ret (s', ev) /\ round s (S (S k)) l ev /\ in_order s' /\ same_config s s' /\ exists z, waiting s' z /\ In z (slots s')).
    { intros s2 I2 W2 C2. assert (C2' := C2). destruct C2' as (E1 & E2 & E3 & _).
      destruct (IH s2 y (Nat.modulo (S k) n) I2 W2) as (s' & ev & A1 & A2 & A3 & A4 & A5); auto; [rewrite E1; auto|].
      exists s', ev. repeat match goal with |- _ /\ _ => split end; auto.
      - apply (round_mod s n eq_refl NZ (S (Nat.modulo (S k) n))).
        + eapply round_congr; [..|exact A2]; congruence.
        + symmetry. apply mod_succ; auto.
      - eapply same_config_trans; eauto. }
    destruct (e_url e p && e_cfg e p) eqn:U.
    + cbn [existsb orb]. destruct Z as [N1 T1]. unfold step, on_stopped, active_slot, slot_at. rewrite N1. cbn [bind].
      rewrite (io_wants _ IO1).
      destruct (CONT (set_timer s1 (Some (Reconnect r)))) as (s' & ev & A1 & A2 & A3 & A4 & A5).
      * eapply in_order_congr; [..|exact IO1]; [repeat split|]. exact (io_prio _ IO1).
      * eapply waiting_closed; [reflexivity|auto|]. exact N1.
      * eapply same_config_trans; [exact SC|]. repeat split.
      * rewrite A1. exists s', (Tried y :: [Start p] ++ ev)%list.
        repeat match goal with |- _ /\ _ => split end; auto.
        change [Start p] with (if true then [Start p] else []). rewrite <- U. econstructor; eauto.
    + cbn [existsb orb]. destruct (CONT s1) as (s' & ev & A1 & A2 & A3 & A4 & A5); auto.
      rewrite A1. exists s', (Tried y :: [] ++ ev)%list.
      repeat match goal with |- _ /\ _ => split end; auto.
      change (@nil event) with (if false then [Start p] else []) at 1. rewrite <- U. econstructor; eauto.
Qed.

Lemma round_at s : forall l k ev i e r, round s k l ev -> nth_error l i = Some (e, r) ->
  exists p, let slot := nth (Nat.modulo (k + i) (List.length (slots s))) (slots s) 0 in
    offered s slot p /\ In (Tried slot) ev /\ (e_url e p = true -> e_cfg e p = true -> In (Start p) ev).
Proof.
  induction l as [|a l IH]; intros k ev i e r R N; [destruct i; discriminate|].
  inversion R as [|k0 e0 r0 l0 ev0 slot p S P R']; subst. destruct i as [|i].
  - cbn in N. injection N as -> ->. rewrite Nat.add_0_r. exists p. repeat split; try apply P; [left; auto|].
    intros -> ->. right. left. reflexivity.
  - cbn in N. destruct (IH _ _ _ _ _ R' N) as (q & Q1 & Q2 & Q3).
    replace (k + S i)%nat with (S k + i)%nat by lia. exists q. split; [auto|].
    split; [right; apply in_or_app; auto|]. intros U C. right. apply in_or_app. auto.
Qed.

Lemma position (n k j : nat) : (j < n)%nat -> exists i, (i < n)%nat /\ Nat.modulo (k + i) n = j.
Proof.
  intros J. exists (Nat.modulo (j + (n - Nat.modulo k n)) n).
  assert (M := Nat.mod_upper_bound k n ltac:(lia)).
  split; [apply Nat.mod_upper_bound; lia|].
  rewrite Nat.add_mod_idemp_r by lia.
  rewrite (Nat.div_mod k n) at 1 by lia.
  replace (n * (k / n) + Nat.modulo k n + (j + (n - Nat.modulo k n)))%nat with (j + (k / n + 1) * n)%nat by lia.
  rewrite Nat.mod_add by lia. apply Nat.mod_small. auto.
Qed.

(** ** The first attempt *)

Lemma index_of_app_none a l x : ~ In x a -> index_of x (a ++ l) = match index_of x l with Some i => Some (List.length a + i)%nat | None => None end.
Proof.
  induction a as [|y a IH]; cbn; intros N; [destruct (index_of x l); auto|].
  destruct (Z.eqb_spec y x); [subst; tauto|]. rewrite IH by tauto. destruct (index_of x l); reflexivity.
Qed.

Lemma first_connect s e slot p : fresh s -> wants s = false -> ws s = false -> ~ In ":"%char (list_ascii_of_string (station_id s)) ->
  (exists x l q, slots s = x :: l /\ offered s x q) -> best s slot p ->
  exists s' ev, connect s None e = Ret (s', ev) /\
    ev = Tried slot :: (if e_url e p && e_cfg e p then [Start p] else []) /\
    (if e_url e p && e_cfg e p then nth_error (slots s') (prio s') = Some slot else waiting s' slot) /\
    cache s' = cache s /\ allow_zero_level s' = allow_zero_level s /\ In slot (slots s') /\
    (NoDup (slots s) -> (forall x, In x (slots s) -> exists q, offered s x q) -> in_order s') /\
    (forall x, In x (slots s') <-> In x (slots s) /\ ((exists q, offered s x q /\ dm_level s <= p_level q) \/ (dm_level s = 0 /\ ~ exists q, offered s x q))).
Proof.
  intros (level & ps & pr & active & az & id & F & C) WA WS ID (x0 & l0 & q0 & SL & Q0) (a & b & SP & P & LP & B).
  destruct (parse_fresh _ _ _ _ _ _ _ C F) as (G & D & DP & CA & PR & _ & PO & TI & _ & AZ & SI & PA & LL & PE).
  unfold connect. rewrite SL. rewrite <- SL.
  unfold active_slot. rewrite PO. unfold slot_at. rewrite SL. cbn [nth_error bind]. rewrite <- SL.
  assert (Q0' := proj2 (get_profile_ok _ _ _) Q0). rewrite Q0'.
  set (s1 := set_pending (set_wants s true) (Some x0)).
  change (ws s1) with (ws s). rewrite WS. cbn [andb].
  unfold try_connect. change (station_id s1) with (station_id s). rewrite (proj2 (has_colon_ok _) ID).
  unfold check_cache. change (last_level s1) with (last_level s). change (dm_level s1) with (dm_level s).
  change (pending s1) with (Some x0). change (active_slot s1) with (slot_at (slots s) (prio s)). change (slots s1) with (slots s).
  rewrite PO. unfold slot_at at 1. rewrite SL. cbn [nth_error]. rewrite <- SL.
  assert (P' := proj2 (get_profile_ok _ _ _) P).
  assert (GP : forall s2 x, cache s2 = cache s -> allow_zero_level s2 = allow_zero_level s -> get_profile s2 x = get_profile s x)
    by (intros s2 x E1 E2; unfold get_profile; rewrite E1, E2; reflexivity).
  assert (NN : forall x q, get_profile s x = Some q -> 0 <= p_level q).
  { intros x q H. apply get_profile_in in H. rewrite CA in H. rewrite Forall_forall in F. apply F. tauto. }
  destruct (Z.eqb_spec (last_level s) (dm_level s)) as [E|E].
  - (* level 0: nothing is filtered *)
    rewrite LL in E. assert (slot = x0 /\ a = []) as [-> ->].
    { destruct a as [|y a]; [rewrite SL in SP; cbn in SP; split; [congruence|auto]|].
      exfalso. rewrite SL in SP. cbn in SP. injection SP as <- _.
      assert (p_level q0 < dm_level s) by (apply (B x0); cbn; auto). assert (0 <= p_level q0) by eauto. lia. }
    cbn [bind]. unfold active_slot. change (slots s1) with (slots s). change (prio s1) with (prio s). rewrite PO.
    unfold slot_at. rewrite SL. cbn [nth_error bind]. rewrite <- SL. change (pending s1) with (Some x0). cbv beta iota zeta.
    change (get_profile s1 x0) with (get_profile s x0). rewrite P'.
    assert (I0 : index_of x0 (slots s) = Some 0%nat) by (rewrite SL; cbn; rewrite Z.eqb_refl; reflexivity).
    rewrite I0. change (wants s1) with true.
    assert (CH : forall x, In x (slots s) <-> In x (slots s) /\ ((exists q, offered s x q /\ dm_level s <= p_level q) \/ (dm_level s = 0 /\ ~ exists q, offered s x q))).
    { intros x. split; [|tauto]. intros I. split; auto. destruct (get_profile s x) as [q|] eqn:Q.
      - left. exists q. split; [apply get_profile_ok; auto|]. rewrite <- E. eauto.
      - right. split; auto. intros [q Hq]. apply get_profile_ok in Hq. congruence. }
    destruct (e_url e p && e_cfg e p); eexists _, _; (split; [reflexivity|]); (split; [reflexivity|]);
      (split; [first [apply waiting_failed; reflexivity | change (nth_error (slots s) 0 = Some x0); rewrite SL; reflexivity]|]);
      (split; [reflexivity|]); (split; [reflexivity|]);
      (split; [change (In x0 (slots s)); rewrite SL; left; reflexivity|]); (split; [|exact CH]); intros ND AP; constructor; cbn; auto;
      rewrite ?LL, ?SL, ?PO; cbn; auto; lia.
  - cbn [bind].
    set (keep := fun x => match get_profile s1 x with Some q => dm_level s <=? p_level q | None => false end).
    change (filter _ (slots s)) with (filter keep (slots s)).
    set (l := filter keep (slots s)).
    assert (KS : keep slot = true) by (unfold keep; change (get_profile s1 slot) with (get_profile s slot); rewrite P'; apply Z.leb_le; auto).
    assert (KA : forall x, In x a -> keep x = false).
    { intros x I. unfold keep. change (get_profile s1 x) with (get_profile s x). destruct (get_profile s x) as [q|] eqn:Q; auto.
      apply Z.leb_gt. apply (B x); auto. apply get_profile_ok; auto. }
    assert (L : exists l', l = slot :: l').
    { unfold l. rewrite SP, filter_app. assert (FA : filter keep a = []).
      { clear -KA. induction a as [|y a IH]; cbn; auto. rewrite (KA y) by (cbn; auto). apply IH. intros; apply KA; cbn; auto. }
      rewrite FA. cbn [filter app]. rewrite KS. eauto. }
    destruct L as [l' L].
    assert (BE : (exists i, index_of x0 l = Some i /\ x0 = slot) \/ index_of x0 l = None /\ next_slot l x0 = Ret slot).
    { destruct (index_of x0 l) as [i|] eqn:I.
      - left. exists i. split; auto. apply index_of_some, nth_error_In in I. unfold l in I. apply filter_In in I. destruct I as [_ I].
        destruct a as [|y a]; [rewrite SL in SP; cbn in SP; congruence|].
        rewrite SL in SP. cbn in SP. injection SP as <- _. rewrite (KA x0) in I; [discriminate|cbn; auto].
      - right. split; auto. unfold next_slot. rewrite I. unfold slot_at. rewrite L. reflexivity. }
    assert (RW : (match index_of x0 l with
                  | Some _ => Ret (set_slots s1 l (Some x0) (dm_level s))
                  | None => bind (next_slot l x0) (fun n => Ret (set_slots s1 l (Some n) (dm_level s)))
                  end) = Ret (set_slots s1 l (Some slot) (dm_level s))).
    { destruct BE as [(i & -> & ->)|[-> ->]]; reflexivity. }
    rewrite RW. cbn [bind]. set (s2 := set_slots s1 l (Some slot) (dm_level s)).
    unfold active_slot. change (slots s2) with l. change (prio s2) with (prio s). rewrite PO, L. unfold slot_at. cbn [nth_error bind].
    rewrite <- L. change (pending s2) with (Some slot). cbv beta iota zeta. change (get_profile s2 slot) with (get_profile s slot). rewrite P'.
    assert (I0 : index_of slot l = Some 0%nat) by (rewrite L; cbn; rewrite Z.eqb_refl; reflexivity).
    rewrite I0. change (wants s2) with true.
    assert (CH : forall x, In x l <-> In x (slots s) /\ ((exists q, offered s x q /\ dm_level s <= p_level q) \/ (dm_level s = 0 /\ ~ exists q, offered s x q))).
    { intros x. unfold l. rewrite filter_In. unfold keep. change (get_profile s1 x) with (get_profile s x). split.
      - intros [I K]. split; auto. destruct (get_profile s x) as [q|] eqn:Q; [|discriminate]. left. exists q.
        split; [apply get_profile_ok; auto|apply Z.leb_le; auto].
      - intros [I [(q & Q & LQ)|[Z0 _]]]; [|rewrite LL in E; congruence]. apply get_profile_ok in Q. rewrite Q. split; auto. apply Z.leb_le; auto. }
    assert (IOX : NoDup (slots s) -> (forall x, In x (slots s) -> exists q, offered s x q) -> NoDup l /\ forall x, In x l -> exists q, offered s x q).
    { intros ND AP. split; [apply NoDup_filter; auto|]. intros x I. apply AP. unfold l in I. apply filter_In in I. tauto. }
    destruct (e_url e p && e_cfg e p); eexists _, _; (split; [reflexivity|]); (split; [reflexivity|]); cbn;
      (split; [first [rewrite L; reflexivity | apply waiting_failed; reflexivity]|]); (split; [reflexivity|]); (split; [reflexivity|]);
      (split; [rewrite L; cbn; auto|]); (split; [|exact CH]); intros ND AP; destruct (IOX ND AP) as [X1 X2];
      constructor; cbn; auto; rewrite ?PO, L; cbn; lia.
Qed.
