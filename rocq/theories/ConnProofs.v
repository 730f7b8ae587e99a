(** Lemmas about the connectivity manager: profiles, slots and security levels. *)
From Coq Require Import ZArith List Bool String Ascii Lia.
From Verif Require Import StrModel StrSpec StrProofs JsonModel JsonProofs DmSpec ConnModel ConnSpec.
Import ListNotations.
Local Open Scope string_scope.
Local Open Scope Z_scope.

Lemma first_of_ok slot : forall l p, first_of slot l = Some p <-> configured l slot p.
Proof.
  induction l as [|q l IH]; intros p; cbn.
  - split; [discriminate|]. intros ([|? ?] & b & E & _); discriminate.
  - destruct (Z.eqb_spec (p_slot q) slot) as [E|E].
    + split.
      * intros [= <-]. exists [], l. auto.
      * intros ([|x a] & b & H & P & F).
        -- injection H as -> _. reflexivity.
        -- injection H as <- _. inversion F; subst. contradiction.
    + rewrite IH. split.
      * intros (a & b & -> & P & F). exists (q :: a), b. auto.
      * intros ([|x a] & b & H & P & F).
        -- injection H as -> _. contradiction.
        -- injection H as <- ->. inversion F; subst. exists a, b. auto.
Qed.

Lemma get_profile_ok s slot p : get_profile s slot = Some p <-> offered s slot p.
Proof.
  unfold get_profile, offered. rewrite <- first_of_ok. destruct (first_of slot (cache s)) as [q|].
  - destruct (allow_zero_level s); cbn.
    + split; [auto|tauto].
    + destruct (Z.eqb_spec (p_level q) 0) as [E|E].
      * split; [discriminate|]. intros ([= ->] & [H|H]); [discriminate|contradiction].
      * split; [|tauto]. intros [= ->]. auto.
  - split; [discriminate|]. intros [H _]. discriminate.
Qed.

Lemma first_of_in slot l p : first_of slot l = Some p -> In p l /\ p_slot p = slot.
Proof. rewrite first_of_ok. intros (a & b & -> & E & _). split; auto. apply in_or_app. cbn. auto. Qed.

Lemma get_profile_in s slot p : get_profile s slot = Some p -> In p (cache s) /\ p_slot p = slot.
Proof. rewrite get_profile_ok. intros [H _]. apply first_of_ok in H. apply first_of_in in H. auto. Qed.

Lemma index_of_some slot : forall l i, index_of slot l = Some i -> nth_error l i = Some slot.
Proof.
  induction l as [|x l IH]; intros i; cbn; [discriminate|].
  destruct (Z.eqb_spec x slot); [intros [= <-]; subst; reflexivity|].
  destruct (index_of slot l) as [j|]; [|discriminate]. intros [= <-]. cbn. auto.
Qed.

Lemma index_of_in slot l : In slot l <-> exists i, index_of slot l = Some i.
Proof.
  split.
  - induction l as [|x l IH]; cbn; [tauto|]. destruct (Z.eqb_spec x slot); [eauto|].
    intros [H|H]; [contradiction|]. destruct (IH H) as [i ->]. eauto.
  - intros [i H]. apply index_of_some in H. eapply nth_error_In; eauto.
Qed.

Lemma index_of_none slot l : index_of slot l = None <-> ~ In slot l.
Proof.
  rewrite index_of_in. destruct (index_of slot l); split; try discriminate; try congruence.
  - intros H. contradict H. eauto.
  - intros _ [i H]. discriminate.
Qed.

Lemma index_of_nodup : forall l i x, NoDup l -> nth_error l i = Some x -> index_of x l = Some i.
Proof.
  induction l as [|y l IH]; intros i x N H; [destruct i; discriminate|].
  inversion N; subst. destruct i as [|i]; cbn in H |- *.
  - injection H as ->. rewrite Z.eqb_refl. reflexivity.
  - destruct (Z.eqb_spec y x) as [-> |]; [apply nth_error_In in H; contradiction|].
    rewrite (IH i x) by auto. reflexivity.
Qed.

Lemma slot_at_ok l i x : slot_at l i = Ret x <-> nth_error l i = Some x.
Proof. unfold slot_at. destruct (nth_error l i); split; congruence. Qed.

(** ** Levels *)

Definition good (s : cm) : Prop :=
  Forall (fun p => 0 <= p_level p) (cache s) /\ Forall (fun p => 0 <= p_level p) (dm_profiles s) /\
  (forall slot p, In slot (slots s) -> get_profile s slot = Some p -> last_level s <= p_level p) /\
  (ws s = true -> last_level s = dm_level s).

Lemma check_cache_ok s s' : check_cache s = Ret s' -> good s ->
  good s' /\ last_level s' = dm_level s' /\ dm_level s' = dm_level s /\ cache s' = cache s /\
  allow_zero_level s' = allow_zero_level s /\ dm_profiles s' = dm_profiles s /\ ws s' = ws s /\ prio s' = prio s /\
  wants s' = wants s /\ timer s' = timer s /\ dm_priority s' = dm_priority s /\
  (last_level s = dm_level s -> s' = s) /\ incl (slots s') (slots s).
Proof.
  unfold check_cache. intros H (C & D & G & W).
  destruct (Z.eqb_spec (last_level s) (dm_level s)) as [E|E].
  - injection H as <-. unfold good. intuition auto. intros x; auto.
  - destruct (active_slot s) as [a|]; [|discriminate]. cbn [bind] in H. revert H.
    set (l := filter _ (slots s)). set (b := match pending s with Some p => p | None => a end). intros H.
    assert (X : exists o, s' = set_slots s l o (dm_level s)).
    { destruct (index_of b l); [injection H as <-; eauto|]. destruct (next_slot l b); [|discriminate].
      injection H as <-. eauto. }
    destruct X as [o ->]. clear H. cbn.
    assert (I : incl l (slots s)) by (intros x H; apply filter_In in H; tauto).
    unfold good; cbn.
    repeat match goal with |- _ /\ _ => split end; auto; try tauto; try congruence.
    intros slot p H P. unfold l in H. apply filter_In in H. destruct H as [_ H].
    change (get_profile s slot = Some p) in P. rewrite P in H. apply Z.leb_le in H. exact H.
Qed.

(** The connection in use goes through [p]. *)
Definition through (s : cm) (p : profile) : Prop :=
  ws s = true /\ last_level s = dm_level s /\ exists slot, nth_error (slots s) (prio s) = Some slot /\ get_profile s slot = Some p.

Lemma try_connect_ok s e s' ev : try_connect s e = Ret (s', ev) -> good s ->
  good s' /\ last_level s' = dm_level s' /\ dm_level s' = dm_level s /\ dm_profiles s' = dm_profiles s /\
  allow_zero_level s' = allow_zero_level s /\ cache s' = cache s /\ wants s' = wants s /\ dm_priority s' = dm_priority s /\
  (last_level s = dm_level s -> slots s' = slots s) /\
  exists slot p, get_profile s slot = Some p /\
    (ev = [Tried slot] /\ ws s' = ws s /\ prio s' = prio s /\ (timer s' = Some (TryNextOf slot) \/ timer s' = timer s /\ wants s = false) \/
     ev = [Tried slot; Start p] /\ dm_level s <= p_level p /\ through s' p /\ e_url e p = true /\ e_cfg e p = true /\
       nth_error (slots s') (prio s') = Some slot /\ timer s' = timer s).
Proof.
  unfold try_connect. destruct (has_colon (station_id s)); [discriminate|].
  destruct (check_cache s) as [s1|] eqn:C; [|discriminate]. cbn [bind]. intros H G.
  destruct (check_cache_ok _ _ C G) as (G1 & L & D & K & A & DP & W & P & Wa & T & PR & Same & I).
  destruct (active_slot s1) as [a|]; [|discriminate]. cbn [bind] in H. revert H.
  set (slot := match pending s1 with Some p => p | None => a end). intros H.
  destruct (get_profile s1 slot) as [p|] eqn:Q; [|discriminate].
  assert (Q' : get_profile s slot = Some p) by (revert Q; unfold get_profile; rewrite K, A; auto).
  assert (GP : forall s2 x, cache s2 = cache s1 -> allow_zero_level s2 = allow_zero_level s1 -> get_profile s2 x = get_profile s1 x)
    by (intros s2 x E1 E2; unfold get_profile; rewrite E1, E2; reflexivity).
  destruct G1 as (Ca & Da & Le & Wl).
  destruct (if e_url e p && e_cfg e p then index_of slot (slots s1) else None) as [i|] eqn:X.
  - destruct (e_url e p && e_cfg e p) eqn:U; [|discriminate]. apply andb_true_iff in U.
    injection H as <- <-. cbn. unfold good, through. cbn.
    assert (N := index_of_some _ _ _ X).
    assert (LP : dm_level s <= p_level p).
    { rewrite <- D, <- L. apply (Le slot); auto. eapply nth_error_In; eauto. }
    repeat match goal with |- _ /\ _ => split end; auto.
    + intros S0. rewrite (Same S0). reflexivity.
    + exists slot, p. split; [auto|]. right.
      repeat match goal with |- _ /\ _ => split end; try tauto; auto. exists slot. split; auto.
  - assert (GT : forall t, good (set_timer s1 t)) by (intros; unfold good; cbn; auto).
    destruct (wants s1) eqn:WW; injection H as <- <-; cbn.
    + split; [apply GT|]. repeat match goal with |- _ /\ _ => split end; auto; try congruence.
      * intros S0. rewrite (Same S0). reflexivity.
      * exists slot, p. split; [auto|]. left. auto.
    + split; [unfold good; auto|]. repeat match goal with |- _ /\ _ => split end; auto; try congruence.
      * intros S0. rewrite (Same S0). reflexivity.
      * exists slot, p. split; [auto|]. left. intuition congruence.
Qed.

Lemma good_congr s s' : cache s' = cache s -> dm_profiles s' = dm_profiles s -> slots s' = slots s ->
  last_level s' = last_level s -> allow_zero_level s' = allow_zero_level s -> dm_level s' = dm_level s -> (ws s' = true -> ws s = true) ->
  good s -> good s'.
Proof.
  intros C D S L A V W (G1 & G2 & G3 & G4). unfold good. rewrite C, D, S, L, V.
  repeat match goal with |- _ /\ _ => split end; auto.
  intros slot p I P. apply (G3 slot); auto. revert P. unfold get_profile. rewrite C, A. auto.
Qed.

Ltac gc := eapply good_congr; [..|eassumption]; auto.

Lemma remove_below_ok s e : good s -> good (remove_below s e).
Proof.
  intros (G1 & G2 & G3 & G4). unfold remove_below, good. cbn.
  repeat match goal with |- _ /\ _ => split end; auto.
  destruct (w_profiles e); auto. rewrite Forall_forall in G2 |- *. intros x I. apply filter_In in I. apply G2. tauto.
Qed.

Lemma confirm_ok s e s' : confirm s e = Ret s' -> good s -> ws s = true ->
  good s' /\ last_level s' = dm_level s' /\ dm_level s <= dm_level s' /\ ws s' = true /\
  cache s' = cache s /\ allow_zero_level s' = allow_zero_level s /\
  (forall p, through s p -> w_level e = true -> dm_level s' = p_level p).
Proof.
  unfold confirm. intros H G W. destruct (active_slot s) as [slot|] eqn:A; [|discriminate]. cbn [bind] in H. revert H.
  set (s1 := match get_profile s slot with Some _ => _ | None => s end). intros H.
  assert (GL := G). destruct GL as (G1 & G2 & G3 & G4). specialize (G4 W).
  unfold active_slot in A. apply slot_at_ok in A.
  assert (IN : In slot (slots s)) by (eapply nth_error_In; eauto).
  assert (X : cache s1 = cache s /\ dm_profiles s1 = dm_profiles s /\ slots s1 = slots s /\ last_level s1 = last_level s /\
              allow_zero_level s1 = allow_zero_level s /\ ws s1 = ws s /\ dm_level s <= dm_level s1 /\
              (forall p, through s p -> w_level e = true -> dm_level s1 = p_level p)).
  { unfold s1. destruct (get_profile s slot) as [p|] eqn:P.
    - assert (dm_level s <= p_level p) by (rewrite <- G4; eauto).
      destruct (w_level e) eqn:WL; cbn; repeat match goal with |- _ /\ _ => split end; auto; try lia; try discriminate.
      intros q (_ & _ & x & N & Q) _. rewrite A in N. injection N as <-. congruence.
    - repeat match goal with |- _ /\ _ => split end; auto; try lia.
      intros q (_ & _ & x & N & Q) _. rewrite A in N. injection N as <-. congruence. }
  clearbody s1. destruct X as (E1 & E2 & E3 & E4 & E5 & E6 & E7 & E8).
  (* the levels of the remaining slots are compared with the new level only afterwards *)
  unfold check_cache in H.
  set (s2 := remove_below s1 e) in *.
  assert (R : cache s2 = cache s1 /\ slots s2 = slots s1 /\ last_level s2 = last_level s1 /\ allow_zero_level s2 = allow_zero_level s1 /\
              ws s2 = ws s1 /\ dm_level s2 = dm_level s1 /\ prio s2 = prio s1 /\ pending s2 = pending s1) by (unfold s2, remove_below; cbn; auto 10).
  assert (DP : Forall (fun p => 0 <= p_level p) (dm_profiles s2)).
  { unfold s2, remove_below; cbn. rewrite E2. destruct (w_profiles e); auto. rewrite Forall_forall in G2 |- *.
    intros x I. apply filter_In in I. apply G2. tauto. }
  clearbody s2. destruct R as (R1 & R2 & R3 & R4 & R5 & R6 & R7 & R8).
  assert (GP : forall x, get_profile s2 x = get_profile s x) by (intros x; unfold get_profile; rewrite R1, R4, E1, E5; reflexivity).
  destruct (Z.eqb_spec (last_level s2) (dm_level s2)) as [E|E].
  - injection H as <-. unfold good. rewrite R1, R2, R3, R4, R5, R6, E1, E3, E4, E5, E6.
    repeat match goal with |- _ /\ _ => split end; auto; try congruence.
    intros x p I P. rewrite GP in P. eauto.
  - destruct (active_slot s2) as [a|]; [|discriminate]. cbn [bind] in H. revert H.
    set (l := filter _ (slots s2)). set (b := match pending s2 with Some p => p | None => a end). intros H.
    assert (X : exists o, s' = set_slots s2 l o (dm_level s2)).
    { destruct (index_of b l); [injection H as <-; eauto|]. destruct (next_slot l b); [|discriminate].
      injection H as <-. eauto. }
    destruct X as [o ->]. unfold good; cbn.
    rewrite R1, R4, R5, R6, E1, E5, E6.
    repeat match goal with |- _ /\ _ => split end; auto.
    intros x p I P. unfold l in I. apply filter_In in I. destruct I as [_ I].
    change (get_profile s2 x = Some p) in P. rewrite P in I. apply Z.leb_le in I. lia.
Qed.

Lemma through_congr s s' p : cache s' = cache s -> slots s' = slots s -> prio s' = prio s ->
  last_level s' = last_level s -> allow_zero_level s' = allow_zero_level s -> dm_level s' = dm_level s -> ws s' = ws s ->
  through s p -> through s' p.
Proof.
  intros C S P L A D W (T1 & T2 & x & N & Q). unfold through. rewrite W, L, D, S, P.
  repeat match goal with |- _ /\ _ => split end; auto. exists x. split; auto.
  revert Q. unfold get_profile. rewrite C, A. auto.
Qed.

Lemma override_last_in p : forall l q, In q (override_last p l) -> q = p \/ In q l.
Proof.
  induction l as [|x l IH]; cbn; intros q; [intuition|].
  destruct ((p_slot x =? p_slot p) && negb (has_slot (p_slot p) l)); cbn; [intuition|].
  intros [H|H]; [auto|]. destruct (IH q H); auto.
Qed.

(** One step: what it keeps. *)
Definition kept (s : cm) (o : op) (s' : cm) (ev : list event) : Prop :=
  good s' /\ dm_level s <= dm_level s' /\
  (forall p, starts ev p -> dm_level s' = dm_level s /\ dm_level s <= p_level p /\ through s' p) /\
  (forall p, no_start ev -> ~ is_reboot o -> ~ is_confirm o -> through s p -> through s' p).

Lemma kept_simple s o s' ev : cache s' = cache s -> dm_profiles s' = dm_profiles s -> slots s' = slots s -> prio s' = prio s ->
  last_level s' = last_level s -> allow_zero_level s' = allow_zero_level s -> dm_level s' = dm_level s -> ws s' = ws s ->
  no_start ev -> good s -> kept s o s' ev.
Proof.
  intros E1 E2 E3 E4 E5 E6 E7 E8 NS G. unfold kept.
  split; [gc; congruence|]. split; [lia|]. split.
  - intros p I. exfalso. exact (NS p I).
  - intros p _ _ _ T. eapply through_congr; [..|exact T]; auto.
Qed.

Lemma kept_try s0 s o e s' ev : cache s = cache s0 -> dm_profiles s = dm_profiles s0 -> slots s = slots s0 -> prio s = prio s0 ->
  last_level s = last_level s0 -> allow_zero_level s = allow_zero_level s0 -> dm_level s = dm_level s0 -> ws s = ws s0 ->
  good s0 -> try_connect s e = Ret (s', ev) -> kept s0 o s' ev.
Proof.
  intros E1 E2 E3 E4 E5 E6 E7 E8 G H.
  assert (G' : good s) by (gc; congruence).
  destruct (try_connect_ok _ _ _ _ H G') as (K1 & K2 & K3 & K4 & K5 & K6 & K7 & K8 & Same & slot & p & P & X).
  unfold kept. repeat match goal with |- _ /\ _ => split end; auto; [lia| |].
  - intros q S. destruct X as [(-> & _)|(-> & L & T & _)]; cbn in S.
    + destruct S as [S|[]]; discriminate.
    + destruct S as [S|[S|[]]]; [discriminate|]. injection S as <-. rewrite K3, <- E7. auto.
  - intros q NS NR NC (T1 & T2 & x & N & Q). destruct X as [(-> & W & PR & _)|(-> & _)].
    + unfold through. rewrite W, E8, PR, E4, (Same ltac:(congruence)), E3.
      repeat match goal with |- _ /\ _ => split end; auto. exists x. split; auto.
      revert Q. unfold get_profile. rewrite K6, K5, E1, E6. auto.
    + exfalso. apply (NS p). right. left. reflexivity.
Qed.

Lemma parse_fresh level ps pr active az id s :
  construct level ps pr active az id = Ret s -> Forall (fun p => 0 <= p_level p) ps ->
  good s /\ dm_level s = level /\ dm_profiles s = ps /\ cache s = ps /\ dm_priority s = pr /\ ws s = false /\ prio s = O /\ timer s = None /\
  wants s = false /\ allow_zero_level s = az /\ station_id s = id /\ parse_slots (split_string pr "," false) = Ret (slots s) /\
  last_level s = 0 /\ pending s = None.
Proof.
  unfold construct. intros H F. destruct (negb az && _); [discriminate|].
  destruct (parse_slots _) as [l|] eqn:E; [|discriminate]. injection H as <-. unfold good. cbn.
  repeat match goal with |- _ /\ _ => split end; auto; [|discriminate].
  intros slot p I P. apply get_profile_in in P. cbn in P. rewrite Forall_forall in F. apply F. tauto.
Qed.

Lemma step_kept s o s' ev : step s o = Ret (s', ev) -> good s ->
  match o with OConfirm _ => ws s = true | OSetProfile p _ _ => 0 <= p_level p | _ => True end ->
  kept s o s' ev.
Proof.
  assert (NS : no_start []) by (intros ? []).
  assert (NS1 : forall x, (forall p, x <> Start p) -> no_start [x]) by (intros x N p [H|[]]; exact (N p H)).
  intros H G OK. destruct o; cbn [step] in H.
  - (* connect *)
    unfold connect in H. destruct (slots s) as [|y l] eqn:SL; [injection H as <- <-; apply kept_simple; auto|].
    destruct (active_slot s) as [a|]; [|discriminate]. cbn [bind] in H. revert H.
    set (x := match slot with Some _ => _ | None => a end). intros H.
    destruct (get_profile s x); [|injection H as <- <-; apply kept_simple; auto].
    revert H. set (s1 := set_pending (set_wants s true) (Some x)). intros H.
    destruct (ws s1 && up s1).
    + injection H as <- <-. apply kept_simple; auto. apply NS1. discriminate.
    + eapply kept_try; [..|exact H]; auto.
  - injection H as <- <-. apply kept_simple; auto. destruct (ws s); auto. apply NS1. discriminate.
  - (* confirm *)
    destruct (confirm s e) as [x|] eqn:C; [|discriminate]. injection H as <- <-.
    destruct (confirm_ok _ _ _ C G OK) as (G' & L & M & W & _).
    unfold kept. repeat match goal with |- _ /\ _ => split end; auto.
    + intros p [].
    + intros p _ _ NC. exfalso. apply NC. exact I.
  - unfold on_connected in H. destruct (active_slot s) as [a|]; [|discriminate]. injection H as <- <-.
    apply kept_simple; auto. destruct (get_profile s a); auto. apply NS1. discriminate.
  - unfold on_disconnected in H. destruct (active_slot s) as [a|]; [|discriminate]. injection H as <- <-.
    apply kept_simple; auto. destruct (get_profile s a); auto. apply NS1. discriminate.
  - unfold on_stopped in H. destruct (active_slot s) as [a|]; [|discriminate]. injection H as <- <-.
    destruct (wants s); apply kept_simple; auto.
  - (* timer *)
    unfold on_timer in H. destruct (timer s) as [[x|r]|]; [| |injection H as <- <-; apply kept_simple; auto].
    + destruct (next_slot _ x) as [n|]; [|discriminate]. cbn [bind] in H. eapply kept_try; [..|exact H]; auto.
    + assert (R : (exists n, try_connect (set_pending (set_timer s None) (Some n)) e = Ret (s', ev)) \/ try_connect (set_timer s None) e = Ret (s', ev)).
      { destruct r; auto; (destruct (active_slot _) as [a|]; [|discriminate]; cbn [bind] in H;
          destruct (next_slot _ a) as [n|]; [|discriminate]; cbn [bind] in H; eauto). }
      destruct R as [[n R]|R]; (eapply kept_try; [..|exact R]; auto).
  - unfold on_network_disconnected in H. destruct (active_slot s) as [a|]; [|discriminate]. cbn [bind] in H.
    destruct (get_profile s a) as [p|]; injection H as <- <-; apply kept_simple; auto.
    destruct (_ && _); auto. apply NS1. discriminate.
  - injection H as <- <-. apply kept_simple; auto. destruct (ws s); auto. apply NS1. discriminate.
  - unfold refresh_options in H. destruct (active_slot s) as [a|]; [|discriminate]. cbn [bind] in H.
    destruct (get_profile s a) as [p|]; [|discriminate]. injection H as <- <-. apply kept_simple; auto.
    destruct (_ && _); auto. apply NS1. discriminate.
  - (* set profile *)
    injection H as <- <-. unfold set_network_profile. destruct valid as [v|]; [|apply kept_simple; auto].
    destruct (p_level p <? dm_level s); [apply kept_simple; auto|]. destruct v; [|apply kept_simple; auto].
    cbn [negb]. destruct (w_profiles e); [|apply kept_simple; auto]. cbn [fst].
    destruct G as (G1 & G2 & G3 & G4). unfold kept.
    split; [|split; [|split]]; [|cbn; lia|intros ? []|].
    + unfold good. cbn. repeat match goal with |- _ /\ _ => split end; auto.
      rewrite Forall_forall in G2 |- *. intros q I. destruct (override_last_in _ _ _ I) as [-> |]; auto.
    + intros q _ _ _ T. eapply through_congr; [..|exact T]; auto.
  - unfold set_priority in H. destruct (validate_slots _ _ _ _ _) as [b|]; [|discriminate]. cbn [bind] in H.
    destruct (b && w_priority e); injection H as <- <-; apply kept_simple; auto.
  - destruct (restart s) as [x|] eqn:R; [|discriminate]. injection H as <- <-. unfold restart in R.
    destruct G as (G1 & G2 & G3 & G4). destruct (parse_fresh _ _ _ _ _ _ _ R G2) as (G' & L & _).
    unfold kept. repeat match goal with |- _ /\ _ => split end; auto; [lia| |].
    + intros p [].
    + intros p _ NR. exfalso. apply NR. exact I.
Qed.

Lemma run_cons s o l x : run s (o :: l) = Ret x -> exists s1 ev1 s2 ev2,
  step s o = Ret (s1, ev1) /\ run s1 l = Ret (s2, ev2) /\ x = (s2, (ev1 ++ ev2)%list).
Proof.
  cbn [run]. destruct (step s o) as [[s1 ev1]|]; [|discriminate]. cbn [bind fst snd].
  destruct (run s1 l) as [[s2 ev2]|] eqn:R; [|discriminate]. cbn [bind fst snd]. intros [= <-].
  exists s1, ev1, s2, ev2. auto.
Qed.

Lemma run_good : forall l s s' ev, run s l = Ret (s', ev) -> good s -> orderly s l ->
  good s' /\ dm_level s <= dm_level s' /\ (forall p, starts ev p -> dm_level s <= p_level p).
Proof.
  induction l as [|o l IH]; intros s s' ev R G O.
  - injection R as <- <-. split; [|split]; auto; [lia|]. intros p [].
  - destruct (run_cons _ _ _ _ R) as (s1 & e1 & s2 & e2 & S & R2 & [= -> ->]). destruct O as [O1 O2].
    destruct (step_kept _ _ _ _ S G O1) as (G1 & M & ST & _).
    destruct (IH s1 s2 e2 R2 G1 (O2 _ S)) as (G2 & M2 & ST2).
    split; [|split]; auto; [lia|]. intros p I. apply in_app_or in I. destruct I as [I|I].
    + destruct (ST p I) as (_ & L & _). lia.
    + specialize (ST2 p I). lia.
Qed.

Lemma run_through : forall l s s' ev p, run s l = Ret (s', ev) -> good s -> orderly s l ->
  no_start ev -> (forall o, In o l -> ~ is_reboot o /\ ~ is_confirm o) -> through s p -> good s' /\ through s' p.
Proof.
  induction l as [|o l IH]; intros s s' ev p R G O NS Q T.
  - injection R as <- <-. auto.
  - destruct (run_cons _ _ _ _ R) as (s1 & e1 & s2 & e2 & S & R2 & [= -> ->]). destruct O as [O1 O2].
    destruct (step_kept _ _ _ _ S G O1) as (G1 & M & ST & K).
    apply (IH s1 s2 e2 p R2 G1 (O2 _ S)).
    + intros q I. apply (NS q). apply in_or_app. auto.
    + intros o' I. apply Q. cbn. auto.
    + apply K; auto; [|apply Q; cbn; auto..]. intros q I. apply (NS q). apply in_or_app. auto.
Qed.

Lemma run_app : forall l1 l2 s x, run s (l1 ++ l2) = Ret x -> exists s1 ev1 s2 ev2,
  run s l1 = Ret (s1, ev1) /\ run s1 l2 = Ret (s2, ev2) /\ x = (s2, (ev1 ++ ev2)%list).
Proof.
  induction l1 as [|o l1 IH]; intros l2 s x R.
  - cbn in R. destruct x as [s2 e2]. exists s, [], s2, e2. auto.
  - cbn [app] in R. destruct (run_cons _ _ _ _ R) as (s1 & e1 & s2 & e2 & S & R2 & ->).
    destruct (IH _ _ _ R2) as (s3 & e3 & s4 & e4 & R3 & R4 & [= -> ->]).
    exists s3, (e1 ++ e3)%list, s4, e4. split; [|split]; auto.
    + cbn [run]. rewrite S. cbn [bind fst snd]. rewrite R3. reflexivity.
    + rewrite app_assoc. reflexivity.
Qed.

Lemma orderly_app : forall l1 l2 s, orderly s (l1 ++ l2) -> orderly s l1 /\ forall s1 ev, run s l1 = Ret (s1, ev) -> orderly s1 l2.
Proof.
  induction l1 as [|o l1 IH]; intros l2 s O.
  - split; [exact I|]. intros s1 ev [= <- <-]. exact O.
  - cbn [app orderly] in O |- *. destruct O as [O1 O2]. split.
    + split; auto. intros x X. destruct (IH _ _ (O2 x X)); auto.
    + intros s1 ev R. destruct (run_cons _ _ _ _ R) as (s2 & e2 & s3 & e3 & S & R2 & [= -> ->]).
      destruct (IH _ _ (O2 _ S)) as [_ H]. eapply H. exact R2.
Qed.
