(** Proofs about the message queue, seventh part: transaction ids that become known after queueing. *)
From Coq Require Import List ZArith NArith Bool Lia Permutation.
From Verif Require Import MQModel MQSpec MQProofs MQProofs2 MQProofs3 MQProofs4 MQProofs5 MQProofs6.
Import ListNotations.
Open Scope Z_scope.

Definition mined (id : N) (l : list msg) : list msg := filter (fun m => N.eqb (m_id m) id) l.

Lemma perm_filter {A} (f : A -> bool) a b : Permutation a b -> Permutation (filter f a) (filter f b).
Proof.
  induction 1; cbn; [constructor|destruct (f x); [apply perm_skip|]; assumption| |eapply perm_trans; eassumption].
  destruct (f x), (f y); try apply Permutation_refl. apply perm_swap.
Qed.
Lemma sub_filter {A} (f : A -> bool) a b : sub a b -> sub (filter f a) (filter f b).
Proof. intros [r H]. exists (filter f r). rewrite <- filter_app. apply perm_filter. exact H. Qed.
Lemma sub_len {A} (a b : list A) : sub a b -> (length a <= length b)%nat.
Proof. intros [r H]. apply Permutation_length in H. rewrite app_length in H. lia. Qed.
Lemma sub_app2 {A} (c a b : list A) : sub a b -> sub (c ++ a) (c ++ b).
Proof. intros [r H]. exists r. rewrite <- app_assoc. apply Permutation_app_head. exact H. Qed.

Lemma check_sizes_all s : sub (all_msgs (fst (check_sizes s))) (all_msgs s).
Proof.
  unfold check_sizes. destruct (over _ _ _); [|apply sub_refl].
  destruct (drop_normal _ _ _ _) as [nq' dn] eqn:En. destruct (drop_tx _ _ _ _ _) as [tq' dt] eqn:Et.
  apply drop_normal_spec in En as [En _]; [|lia]. apply drop_tx_split in Et as (_ & _ & Et).
  unfold all_msgs. apply sub_app2. cbn [fst s_nq s_tq set_s_nq set_s_tq].
  exists (dn ++ dt). rewrite En, <- Et. cbn.
  rewrite <- !app_assoc. rewrite (Permutation_app_comm nq').
  rewrite <- !app_assoc. rewrite (Permutation_app_comm tq'). rewrite <- !app_assoc. apply Permutation_app_head.
  rewrite (Permutation_app_comm dt). rewrite <- !app_assoc. apply Permutation_app_head. apply Permutation_refl.
Qed.

Lemma add_tx_all m s : sub (all_msgs (fst (add_tx m s))) (all_msgs s ++ [m]).
Proof.
  unfold add_tx. eapply sub_trans; [apply check_sizes_all|]. apply sub_perm.
  unfold all_msgs. cbn. rewrite !app_assoc. apply Permutation_refl.
Qed.
Lemma add_normal_all m s : sub (all_msgs (fst (add_normal m s))) (all_msgs s ++ [m]).
Proof.
  unfold add_normal. eapply sub_trans; [apply check_sizes_all|]. apply sub_perm.
  unfold all_msgs. cbn. rewrite <- !app_assoc. apply Permutation_app_head.
  assert (A : Permutation (m :: s_nq s ++ s_tq s) (s_nq s ++ s_tq s ++ [m])).
  { rewrite app_assoc. apply Permutation_cons_append. }
  assert (B : Permutation ((s_nq s ++ [m]) ++ s_tq s) (s_nq s ++ s_tq s ++ [m])).
  { rewrite <- app_assoc. apply Permutation_app_head. apply Permutation_cons_append. }
  destruct (m_type m); first [exact A|exact B].
Qed.

Lemma mined_new id l m : m_id m <> id -> mined id (l ++ [m]) = mined id l.
Proof. intros H. unfold mined. rewrite filter_app. cbn. destruct (N.eqb_spec (m_id m) id); [contradiction|]. apply app_nil_r. Qed.

Lemma failure_all e i t z id : i <> id -> sub (mined id (all_msgs (fst (handle_failure e i t z)))) (mined id (all_msgs z)).
Proof.
  intros Hi. unfold handle_failure. destruct (s_fl z) as [m|] eqn:Ef; [|apply sub_refl].
  assert (Hd : forall z', s_fl z' = None -> s_nq z' = s_nq z -> s_tq z' = s_tq z ->
    sub (mined id (all_msgs z')) (mined id (all_msgs z))).
  { intros z' H1 H2 H3. apply sub_filter. unfold all_msgs. rewrite H1, H2, H3, Ef. cbn [app].
    exists [m]. rewrite <- Permutation_cons_append. apply Permutation_refl. }
  assert (Hr : forall z' x, m_id x = i -> s_fl z' = None ->
    (s_nq z' = x :: s_nq z /\ s_tq z' = s_tq z) \/ (s_nq z' = s_nq z /\ s_tq z' = x :: s_tq z) ->
    sub (mined id (all_msgs z')) (mined id (all_msgs z))).
  { intros z' x Hx H1 H2. unfold all_msgs. rewrite H1, Ef. cbn [app].
    assert (E : mined id (s_nq z' ++ s_tq z') = mined id (s_nq z ++ s_tq z)).
    { unfold mined. rewrite !filter_app.
      destruct H2 as [[-> ->]|[-> ->]]; cbn [filter]; rewrite Hx; destruct (N.eqb_spec i id); try contradiction; reflexivity. }
    rewrite E. cbn. destruct (N.eqb _ _); [|apply sub_refl].
    exists [m]. rewrite <- Permutation_cons_append. apply Permutation_refl. }
  destruct (is_tx _ _) eqn:Etx; cbn [orb]; [|destruct (check_queue _ _)].
  - destruct (_ <? _); [eapply Hr; [|reflexivity|right; split; reflexivity]; reflexivity|]. destruct (resolvable _ _); [apply Hd; reflexivity|apply sub_refl].
  - destruct (_ <? _); [eapply Hr; [|reflexivity|left; split; reflexivity]; reflexivity|]. destruct (resolvable _ _); [apply Hd; reflexivity|apply sub_refl].
  - destruct (mtype_eqb _ _); [eapply Hr; [|reflexivity|left; split; reflexivity]; reflexivity|]. destruct (resolvable _ _); [apply Hd; reflexivity|apply sub_refl].
Qed.

(** ** One step, seen through the messages with id [id] *)

Definition same_id_tx (a b : msg) : Prop := m_id a = m_id b /\ m_tx a = m_tx b.

Inductive idstep (id : N) (s : st) (l : list out) (s' : st) : Prop :=
| id_dead x : s_dead s' = true -> (forall m b, In (OSend m b) l -> m_id m = id -> m = prepare x (s_txmap s) /\ In x (all_msgs s)) -> idstep id s l s'
| id_stay : (forall m b, In (OSend m b) l -> m_id m <> id) -> sub (mined id (all_msgs s')) (mined id (all_msgs s)) ->
    lookup id (s_txmap s') = lookup id (s_txmap s) -> idstep id s l s'
| id_sent x y y' R : (forall m b, In (OSend m b) l -> m = y) -> m_id x = id -> y = prepare x (s_txmap s) -> same_id_tx y' y ->
    Permutation (mined id (all_msgs s)) (x :: R) -> sub (mined id (all_msgs s')) (y' :: R) ->
    lookup id (s_txmap s') = None -> idstep id s l s'.

Lemma lookup_remove {A} k j (l : list (N * A)) : lookup k (remove_key j l) = if N.eqb k j then None else lookup k l.
Proof.
  unfold lookup, remove_key. induction l as [|[a b] l IH]; cbn [filter find fst]; [destruct (N.eqb k j); reflexivity|].
  destruct (N.eqb_spec a j); cbn [negb].
  - rewrite IH. subst a. destruct (N.eqb_spec k j); [reflexivity|].
    destruct (N.eqb_spec j k); [congruence|reflexivity].
  - cbn [find fst]. destruct (N.eqb_spec a k); [|exact IH].
    subst a. destruct (N.eqb_spec k j); [contradiction|reflexivity].
Qed.

Lemma prepare_id m l : m_id (prepare m l) = m_id m.
Proof. apply (proj1 (prepare_same m l)). Qed.
Lemma prepare_tx m l : m_tx (prepare m l) = match lookup (m_id m) l with Some t => Some t | None => m_tx m end.
Proof. apply (prepare_same m l). Qed.
Lemma mark_offline_idtx m : same_id_tx (mark_offline m) m.
Proof. unfold mark_offline. split; destruct (m_type m); reflexivity. Qed.
Lemma finish_all s : all_msgs (finish_iteration s) = all_msgs s /\ s_txmap (finish_iteration s) = s_txmap s /\ s_dead (finish_iteration s) = s_dead s.
Proof. unfold finish_iteration. destruct (no_messages s); repeat split. Qed.
Lemma alive_all b s : all_msgs (set_s_alive b s) = all_msgs s /\ s_txmap (set_s_alive b s) = s_txmap s /\ s_dead (set_s_alive b s) = s_dead s.
Proof. repeat split. Qed.

(** The queue contents before and after sending [x]; [y] replaces [x] (or is dropped). *)
Definition swapped (s s' : st) (x y : msg) : Prop :=
  exists R, Permutation (all_msgs s) (x :: R) /\ sub (all_msgs s') (y :: R).

Lemma transmit_swap sel x now ok s : s_fl s = None -> select s now = sel ->
  (exists pre post, sel = SelNormal pre x post) \/ (exists rest, sel = SelTx x rest) ->
  let r := transmit sel x now ok s in
  s_dead (fst r) = true \/
  (exists y', same_id_tx y' (prepare x (s_txmap s)) /\ swapped s (fst r) x y').
Proof.
  intros Hf Hs Hx. cbn zeta.
  assert (H : exists R, Permutation (all_msgs s) (x :: R) /\
    (forall y z, s_fl z = None -> s_nq z = s_nq s -> s_tq z = s_tq s -> Permutation (all_msgs (keep_modified sel y z)) (y :: R)) /\
    (forall y z, s_nq z = s_nq s -> s_tq z = s_tq s -> Permutation (all_msgs (set_s_fl (Some y) (sent_ok sel z))) (y :: R))).
  { unfold all_msgs. rewrite Hf. cbn [app].
    destruct Hx as [(pre & post & ->)|(rest & ->)].
    - apply select_normal_parts in Hs. exists ((pre ++ post) ++ s_tq s). rewrite Hs.
      split; [rewrite <- !app_assoc; cbn [app]; symmetry; apply Permutation_middle|].
      split.
      + intros y z Hz H1 H2. cbn [keep_modified]. cbn. rewrite Hz, H2. cbn [app].
        rewrite <- !app_assoc. cbn [app]. symmetry. apply Permutation_middle.
      + intros y z H1 H2. cbn [sent_ok]. cbn. rewrite H2. apply Permutation_refl.
    - apply select_tx_parts in Hs. exists (s_nq s ++ rest). rewrite Hs.
      split; [symmetry; apply Permutation_middle|].
      split.
      + intros y z Hz H1 H2. cbn [keep_modified]. cbn. rewrite Hz, H1. cbn [app]. symmetry. apply Permutation_middle.
      + intros y z H1 H2. cbn [sent_ok]. cbn. rewrite H1. apply Permutation_refl. }
  destruct H as (R & P0 & Pk & Ps). unfold transmit. cbn zeta.
  set (y := prepare x (s_txmap s)).
  destruct ok.
  - right. exists y. split; [split; reflexivity|]. exists R. split; [exact P0|]. apply sub_perm.
    cbn [fst]. rewrite (proj1 (finish_all _)).
    exact (Ps y (set_s_txmap (remove_key (m_id y) (s_txmap s)) s) eq_refl eq_refl).
  - destruct (is_tx _ _).
    + right. exists (mark_offline y). split; [apply mark_offline_idtx|]. exists R. split; [exact P0|]. apply sub_perm.
      cbn [fst]. rewrite (proj1 (finish_all _)).
      pose proof (Pk (mark_offline y) (reset_in_flight (set_s_paused true (set_s_txmap (remove_key (m_id y) (s_txmap s)) s))) eq_refl eq_refl eq_refl) as P.
      unfold all_msgs in *. destruct sel; exact P.
    + assert (K : exists y', same_id_tx y' y /\
          swapped s (finish_iteration (reset_in_flight (keep_modified sel y (set_s_paused true (set_s_txmap (remove_key (m_id y) (s_txmap s)) s))))) x y').
      { exists y. split; [split; reflexivity|]. exists R. split; [exact P0|]. apply sub_perm. rewrite (proj1 (finish_all _)).
        pose proof (Pk y (reset_in_flight (set_s_paused true (set_s_txmap (remove_key (m_id y) (s_txmap s)) s))) eq_refl eq_refl eq_refl) as P.
        unfold all_msgs in *. destruct sel; exact P. }
      destruct (check_queue _ _); [right; exact K|].
      destruct sel as [|pre q post|q rest]; [right; exact K| |right; exact K].
      destruct (resolvable _ _); [|left; reflexivity].
      right. exists y. split; [split; reflexivity|]. exists R. split; [exact P0|].
      cbn [fst]. rewrite (proj1 (finish_all _)).
      eapply sub_trans; [|apply sub_perm; exact (Pk y (reset_in_flight (set_s_paused true (set_s_txmap (remove_key (m_id y) (s_txmap s)) s))) eq_refl eq_refl eq_refl)].
      unfold all_msgs. cbn.
      destruct (pre ++ y :: post) as [|a w]; [apply sub_refl|]. cbn [tl].
      exists [a]. rewrite <- Permutation_cons_append. apply Permutation_refl.
Qed.

Lemma work_stays now ok s : snd (work now ok s) = [] -> all_msgs (fst (work now ok s)) = all_msgs s /\ s_txmap (fst (work now ok s)) = s_txmap s.
Proof.
  unfold work. destruct (negb _); [repeat split|]. destruct (negb _); [repeat split|].
  unfold iterate. destruct (no_messages s); [repeat split|]. destruct (s_paused s); [repeat split|].
  destruct (s_fl s); [repeat split|].
  destruct (select s now) as [|pre m post|m rest]; [repeat split| |]; (destruct (held_back s m); [repeat split|]).
  - destruct (transmit_outs (SelNormal pre m post) m now ok s) as (r & R1 & _).
    destruct (transmit (SelNormal pre m post) m now ok s). cbn in *. intros ->. discriminate.
  - destruct (transmit_outs (SelTx m rest) m now ok s) as (r & R1 & _).
    destruct (transmit (SelTx m rest) m now ok s). cbn in *. intros ->. discriminate.
Qed.

Lemma work_idstep id now ok s : idstep id s (snd (work now ok s)) (fst (work now ok s)).
Proof.
  destruct (work_cases now ok s) as [E|(sel & x & H1 & H2 & H3 & H4 & H5 & H6 & H7 & H8)].
  - destruct (work_stays now ok s E) as [A B]. apply id_stay.
    + rewrite E. intros m b [].
    + rewrite A. apply sub_refl.
    + rewrite B. reflexivity.
  - destruct (transmit_outs sel x now ok s) as (r & R1 & R2 & _).
    assert (S : forall m b, In (OSend m b) (snd (work now ok s)) -> m = prepare x (s_txmap s)).
    { rewrite H7, R1. intros m b [H|H]; [congruence|]. exfalso. unfold quiet in R2. rewrite forallb_forall in R2.
      apply R2 in H. discriminate. }
    pose proof (fr_transmit sel x now ok s) as F. unfold fr in F. injection F as _ _ F _.
    assert (Ht : s_txmap (fst (work now ok s)) = remove_key (m_id x) (s_txmap s)).
    { rewrite H8. cbn [set_s_alive s_txmap]. rewrite F, prepare_id. reflexivity. }
    destruct (transmit_swap sel x now ok s H3 H5 H6) as [D|(y' & Y & R & P1 & P2)].
    + apply id_dead with x; [rewrite H8; exact D|]. intros m b Hm _. split; [eapply S; exact Hm|].
      unfold all_msgs. apply in_or_app; right. destruct H6 as [(pre & post & E)|(rest & E)]; rewrite E in H5.
      * apply select_normal_parts in H5. rewrite H5. apply in_or_app; left. apply in_or_app; right. left; reflexivity.
      * apply select_tx_parts in H5. rewrite H5. apply in_or_app; right. left; reflexivity.
    + assert (A : all_msgs (fst (work now ok s)) = all_msgs (fst (transmit sel x now ok s))) by (rewrite H8; reflexivity).
      destruct (N.eqb_spec (m_id x) id) as [e|n].
      * apply id_sent with x (prepare x (s_txmap s)) y' (mined id R); auto.
        -- apply perm_filter with (f := fun m => N.eqb (m_id m) id) in P1. cbn in P1.
           rewrite e, N.eqb_refl in P1. exact P1.
        -- rewrite A. apply sub_filter with (f := fun m => N.eqb (m_id m) id) in P2. cbn in P2.
           destruct Y as [Y _]. rewrite Y, prepare_id, e, N.eqb_refl in P2. exact P2.
        -- rewrite Ht, lookup_remove, e, N.eqb_refl. reflexivity.
      * apply id_stay.
        -- intros m b Hm. rewrite (S m b Hm), prepare_id. exact n.
        -- rewrite A. apply sub_filter with (f := fun m => N.eqb (m_id m) id) in P2. cbn in P2.
           destruct Y as [Y _]. rewrite Y, prepare_id in P2.
           apply perm_filter with (f := fun m => N.eqb (m_id m) id) in P1. cbn in P1.
           destruct (N.eqb_spec (m_id x) id); [contradiction|].
           eapply sub_trans; [exact P2|]. apply sub_perm. symmetry. exact P1.
        -- rewrite Ht, lookup_remove. destruct (N.eqb_spec id (m_id x)); [congruence|reflexivity].
Qed.

Lemma quiet_none l : quiet l -> forall m b, ~ In (OSend m b) l.
Proof. intros H m b Hm. unfold quiet in H. rewrite forallb_forall in H. apply H in Hm. discriminate. Qed.

Lemma lookup_in {A} k (l : list (N * A)) v : lookup k l = Some v -> In (k, v) l.
Proof.
  unfold lookup. destruct (find _ l) as [[a b]|] eqn:E; [|discriminate]. apply find_some in E as [E1 E2].
  cbn in E2. apply N.eqb_eq in E2. subst a. intros H. injection H as <-. exact E1.
Qed.

Lemma step_idstep id s o : id_settled id [o] -> unregistered id s -> idstep id s (snd (step s o)) (fst (step s o)).
Proof.
  intros Hs Hu. inversion Hs as [|? ? Ho _]; subst.
  assert (Q : (forall now ok, o <> Work now ok) -> forall m b, In (OSend m b) (snd (step s o)) -> m_id m <> id).
  { intros Hw m b Hm. exfalso. eapply quiet_none; [|exact Hm]. apply step_quiet. exact Hw. }
  assert (K : (forall now ok, o <> Work now ok) -> all_msgs (fst (step s o)) = all_msgs s -> s_txmap (fst (step s o)) = s_txmap s ->
     idstep id s (snd (step s o)) (fst (step s o))).
  { intros Hw A B. apply id_stay; [apply Q; exact Hw|rewrite A; apply sub_refl|rewrite B; reflexivity]. }
  assert (T : (forall now ok, o <> Work now ok) -> sub (mined id (all_msgs (fst (step s o)))) (mined id (all_msgs s)) ->
     s_txmap (fst (step s o)) = s_txmap s -> idstep id s (snd (step s o)) (fst (step s o))).
  { intros Hw A B. apply id_stay; [apply Q; exact Hw|exact A|rewrite B; reflexivity]. }
  destruct (s_dead s) eqn:Ed.
  { destruct o; try contradiction; try (apply K; [discriminate|cbn [step]; rewrite Ed; reflexivity|cbn [step]; rewrite Ed; reflexivity]).
    apply id_dead with (mk_msg 0 (Call TBoot id false None 0) 0 false); cbn [step]; rewrite Ed; [exact Ed|intros m b []]. }
  assert (Push1 : forall m z, all_msgs z = all_msgs s -> m_id m <> id ->
     sub (mined id (all_msgs (fst (add_tx m z)))) (mined id (all_msgs s)) /\
     sub (mined id (all_msgs (fst (add_normal m z)))) (mined id (all_msgs s))).
  { intros m z Hz Hm. rewrite <- Hz. rewrite <- (mined_new id (all_msgs z) m Hm).
    split; apply sub_filter; [apply add_tx_all|apply add_normal_all]. }
  assert (Ftx : forall s', fr s' = fr s -> s_txmap s' = s_txmap s).
  { intros s' H. unfold fr in H. injection H as _ _ H _. exact H. }
  destruct o; try contradiction;
    try (apply K; [discriminate|cbn [step]; rewrite Ed; reflexivity|cbn [step]; rewrite Ed; reflexivity]).
  - apply T; [discriminate| |]; cbn [step]; rewrite Ed; [|apply Ftx, fr_push_call].
    unfold push_call. destruct (negb _); [apply sub_refl|].
    set (m := mk_msg _ _ _ _). set (z := set_s_gh _ s).
    assert (Hz : all_msgs z = all_msgs s) by reflexivity. assert (Hm : m_id m <> id) by exact Ho. clearbody m z.
    destruct (Push1 m z Hz Hm) as [P1 P2]. destruct (is_tx _ _); [exact P1|].
    destruct (_ || _); [exact P2|cbn [fst]; rewrite Hz; apply sub_refl].
  - apply T; [discriminate| |]; cbn [step]; rewrite Ed; [|apply Ftx, fr_push_async].
    unfold push_call_async. set (m := mk_msg _ _ _ _). set (z := set_s_gh _ s).
    assert (Hz : all_msgs z = all_msgs s) by reflexivity. assert (Hm : m_id m <> id) by exact Ho. 
    assert (Hz' : forall h, all_msgs (resolve h z) = all_msgs s) by reflexivity. clearbody m z.
    destruct (Push1 m z Hz Hm) as [P1 P2].
    destruct (negb _); [cbn [fst]; rewrite Hz'; apply sub_refl|].
    destruct (is_tx _ _); [exact P1|].
    destruct (_ && _); [cbn [fst]; rewrite Hz'; apply sub_refl|exact P2].
  - apply K; [discriminate| |]; cbn [step]; rewrite Ed; unfold push_reply; (destruct (negb _); [reflexivity|]);
      (destruct (s_next s); [destruct (N.eqb _ _)|]); reflexivity.
  - cbn [step]. rewrite Ed. apply work_idstep.
  - apply T; [discriminate| |]; cbn [step]; rewrite Ed; unfold recv_result; destruct (s_fl s) as [m|] eqn:Ef;
      try (apply sub_refl); try reflexivity; (destruct (N.eqb _ _); [|first [apply sub_refl|reflexivity]]);
      unfold handle_call_result; (destruct (resolvable _ _); [|first [apply sub_refl|reflexivity]]).
    + apply sub_filter. unfold all_msgs. rewrite Ef. cbn [fst].
      exists [m]. rewrite <- Permutation_cons_append.
      destruct (is_tx _ _); [|destruct (check_queue _ _)]; cbn; apply Permutation_refl.
    + cbn [fst]. destruct (is_tx _ _); [|destruct (check_queue _ _)]; reflexivity.
  - apply K; [discriminate| |]; cbn [step]; rewrite Ed; unfold recv_error_begin;
      (destruct (s_fl s) eqn:Ef; [destruct (N.eqb _ _)|]); reflexivity.
  - apply T; [discriminate| |]; cbn [step]; rewrite Ed; unfold recv_error_end;
      (destruct (s_errs s); [first [apply sub_refl|reflexivity]|]).
    + apply (failure_all _ _ _ (set_s_errs l s)). exact Ho.
    + apply Ftx. rewrite fr_handle_failure. reflexivity.
  - apply T; [discriminate| |]; cbn [step]; rewrite Ed; unfold recv_error; (destruct (s_fl s) as [m|] eqn:Ef; [|first [apply sub_refl|reflexivity]]);
      (destruct (N.eqb _ _); [|first [apply sub_refl|reflexivity]]).
    + apply (failure_all _ _ _ (set_s_next None s)). exact Ho.
    + pose proof (fr_handle_failure (Some id0) newid now (set_s_next None s)) as F. unfold fr in F. injection F as _ _ F _. exact F.
  - apply K; [discriminate| |]; cbn [step]; rewrite Ed; unfold timer_expire;
      (destruct (s_armed s) as [d|]; [destruct (d <=? now)|]); reflexivity.
  - apply T; [discriminate| |]; cbn [step]; rewrite Ed; unfold timer_run; (destruct (s_fired s); [|first [apply sub_refl|reflexivity]]).
    + apply (failure_all _ _ _ (set_s_fired false s)). exact Ho.
    + apply Ftx. rewrite fr_handle_failure. reflexivity.
  - apply T; [discriminate| |]; cbn [step]; rewrite Ed; (destruct (s_armed s) as [d|]; [|first [apply sub_refl|reflexivity]]);
      (destruct (d <=? now); [|first [apply sub_refl|reflexivity]]).
    + apply (failure_all _ _ _ (set_s_armed None s)). exact Ho.
    + apply Ftx. rewrite fr_handle_failure. reflexivity.
  - apply K; [discriminate| |]; cbn [step]; rewrite Ed;
      (destruct (s_nt s) as [d|]; [destruct (d <=? now)|]); reflexivity.
  - apply K; [discriminate| |]; cbn [step]; rewrite Ed; cbn [fst]; unfold resume; (destruct (negb _); [reflexivity|]);
      (destruct (_ && _); [reflexivity|]); unfold resume_now; destruct (N.eqb _ _); reflexivity.
  - apply K; [discriminate| |]; cbn [step]; rewrite Ed; cbn [fst]; unfold resume_timer; (destruct (existsb _ _); [|reflexivity]);
      unfold resume_now; destruct (N.eqb _ _); reflexivity.
  - (* AddStopped of another id *)
    apply id_stay; [apply Q; discriminate| |]; cbn [step]; rewrite Ed; [apply sub_refl|].
    cbn [fst set_s_txmap s_txmap]. unfold lookup at 1. cbn [find fst].
    destruct (N.eqb_spec id0 id); [contradiction|]. fold (lookup id (remove_key id0 (s_txmap s))).
    rewrite lookup_remove. destruct (N.eqb_spec id id0); [congruence|reflexivity].
  - apply K; [discriminate| |]; cbn [step]; rewrite Ed; cbn [fst]; unfold add_meter_id; destruct (lookup _ _); reflexivity.
  - (* StartHandled: only registered ids are touched *)
    apply T; [discriminate| |]; cbn [step]; rewrite Ed; cbn [fst]; unfold start_handled;
      (destruct (lookup start (s_mvmap s)) as [l|] eqn:El; [|first [apply sub_refl|reflexivity]]); [|reflexivity].
    apply lookup_in in El. specialize (Hu _ _ El).
    unfold all_msgs. cbn. unfold mined. rewrite !filter_app.
    match goal with |- sub (_ ++ _ ++ ?a) (_ ++ _ ++ ?b) => assert (E : a = b); [|rewrite E; apply sub_refl] end.
    induction (s_tq s) as [|x q IH]; [reflexivity|]. cbn [map filter].
    destruct (existsb (N.eqb (m_id x)) l) eqn:Ex; cbn [set_tx m_id].
    + apply existsb_exists in Ex as (y & Hy & Ey). apply N.eqb_eq in Ey. subst y.
      destruct (N.eqb_spec (m_id x) id); [exfalso; apply Hu; congruence|exact IH].
    + destruct (N.eqb _ _); [f_equal|]; exact IH.
Qed.

Lemma unregistered_step id s o : id_settled id [o] -> unregistered id s -> unregistered id (fst (step s o)).
Proof.
  intros Hs Hu. inversion Hs as [|? ? Ho _]; subst.
  assert (E : forall s', fr s' = fr s -> unregistered id s').
  { intros s' H. unfold fr in H. injection H as _ _ _ H. unfold unregistered. rewrite H. exact Hu. }
  destruct o; cbn [step]; try contradiction; destruct (s_dead s); try exact Hu.
  - apply E, fr_push_call.
  - apply E, fr_push_async.
  - unfold push_reply. destruct (negb _); [exact Hu|]. destruct (s_next s); [destruct (N.eqb _ _)|]; exact Hu.
  - destruct (fr_work now ok s) as [F|(x & F)]; [apply E, F|]. unfold fr in F. injection F as _ _ _ F.
    unfold unregistered. rewrite F. exact Hu.
  - unfold recv_result. destruct (s_fl s); [|exact Hu]. destruct (N.eqb _ _); [|exact Hu].
    unfold handle_call_result. destruct (resolvable _ _); [|exact Hu]. cbn [fst].
    destruct (is_tx _ _); [|destruct (check_queue _ _)]; exact Hu.
  - unfold recv_error_begin. destruct (s_fl s); [|exact Hu]. destruct (N.eqb _ _); exact Hu.
  - unfold recv_error_end. destruct (s_errs s); [exact Hu|]. apply E. rewrite fr_handle_failure. reflexivity.
  - unfold recv_error. destruct (s_fl s); [|exact Hu]. destruct (N.eqb _ _); [|exact Hu].
    pose proof (fr_handle_failure (Some id0) newid now (set_s_next None s)) as F. unfold fr in F. injection F as _ _ _ F.
    unfold unregistered. rewrite F. exact Hu.
  - unfold timer_expire. destruct (s_armed s) as [d|]; [destruct (d <=? now)|]; exact Hu.
  - unfold timer_run. destruct (s_fired s); [|exact Hu]. apply E. rewrite fr_handle_failure. reflexivity.
  - destruct (s_armed s) as [d|]; [destruct (d <=? now)|]; try exact Hu. apply E. rewrite fr_handle_failure. reflexivity.
  - destruct (s_nt s) as [d|]; [destruct (d <=? now)|]; exact Hu.
  - apply E. apply fr_resume.
  - apply E. apply fr_resume_timer.
  - cbn [fst]. unfold add_meter_id. destruct (lookup start (s_mvmap s)) as [l|] eqn:El; intros a l' [H|H]; cbn in *.
    + injection H as <- <-. intros Hi. apply in_app_or in Hi as [Hi|[Hi|[]]]; [|congruence].
      apply lookup_in in El. exact (Hu _ _ El Hi).
    + unfold remove_key in H. apply filter_In in H as [H _]. exact (Hu _ _ H).
    + injection H as <- <-. intros [Hi|[]]. congruence.
    + exact (Hu _ _ H).
  - cbn [fst]. unfold start_handled. intros a l' H.
    assert (In (a, l') (s_mvmap s)) as H'. { destruct (lookup start (s_mvmap s)); cbn in H; unfold remove_key in H; apply filter_In in H as [H _]; exact H. }
    exact (Hu _ _ H').
Qed.

Definition stamped (id : N) (t : Z) (s : st) : Prop :=
  s_dead s = true \/
  (lookup id (s_txmap s) = Some t /\ (length (mined id (all_msgs s)) <= 1)%nat) \/
  (lookup id (s_txmap s) = None /\ Forall (fun m => m_tx m = Some t) (mined id (all_msgs s))).

Lemma stamped_run id t os : forall s, id_settled id os -> unregistered id s -> stamped id t s -> sent_with_tx id t (outs (trace s os)).
Proof.
  induction os as [|o os IH]; intros s Hs Hu Hst; [intros m b []|].
  inversion Hs as [|? ? Ho Hos]; subst.
  assert (Ho1 : id_settled id [o]) by (constructor; [exact Ho|constructor]).
  cbn [trace]. rewrite outs_cons. intros m b Hm Hid. apply in_app_or in Hm.
  assert (G : stamped id t (fst (step s o)) /\ (In (OSend m b) (snd (step s o)) -> m_tx m = Some t)).
  { destruct Hst as [Hd|Hst].
    { destruct o; try contradiction; cbn [step]; rewrite Hd; cbn [fst snd]; (split; [left; exact Hd|intros []]). }
    assert (Tx : forall x, In x (all_msgs s) -> m_id x = id -> m_tx (prepare x (s_txmap s)) = Some t).
    { intros x Hx Ex. rewrite prepare_tx, Ex. destruct Hst as [[-> _]|[-> H]]; [reflexivity|].
      rewrite Forall_forall in H. apply H. apply filter_In. split; [exact Hx|apply N.eqb_eq; exact Ex]. }
    destruct (step_idstep id s o Ho1 Hu) as [x D S|S A L|x y y' R S Ex Ey Y P P' L].
    - split; [left; exact D|]. intros H. destruct (S m b H Hid) as [-> Hx]. apply Tx; [exact Hx|].
      rewrite prepare_id in Hid. exact Hid.
    - split; [|intros H; exfalso; exact (S m b H Hid)]. right. rewrite L. destruct Hst as [[H1 H2]|[H1 H2]].
      + left. split; [exact H1|]. apply sub_len in A. lia.
      + right. split; [exact H1|]. eapply sub_forall; eassumption.
    - assert (Hy : m_tx y = Some t).
      { rewrite Ey. apply Tx; [|exact Ex].
        assert (In x (mined id (all_msgs s))) as Hx by (eapply Permutation_in; [symmetry; exact P|left; reflexivity]).
        apply filter_In in Hx as [Hx _]. exact Hx. }
      split; [|intros H; rewrite (S m b H); exact Hy].
      right. right. split; [exact L|].
      eapply sub_forall; [exact P'|]. constructor; [destruct Y as [_ Y]; congruence|].
      destruct Hst as [[_ H2]|[_ H2]].
      + apply Permutation_length in P. cbn in P. destruct R; [constructor|cbn in P; lia].
      + rewrite P in H2. inversion H2; assumption. }
  destruct G as [G1 G2]. destruct Hm as [Hm|Hm]; [exact (G2 Hm)|].
  exact (IH _ Hos (unregistered_step _ _ _ Ho1 Hu) G1 m b Hm Hid).
Qed.

(** ** StopTransaction queued before the transaction id is known *)
Lemma stop_gets_tx s id t os : s_dead s = false -> (copies id s <= 1)%nat -> unregistered id s -> id_settled id os ->
  sent_with_tx id t (outs (trace s (AddStopped id t :: os))).
Proof.
  intros Hd Hc Hu Hs. cbn [trace step]. rewrite Hd. cbn [fst snd]. rewrite outs_cons. cbn [app].
  apply stamped_run; [exact Hs|exact Hu|]. right. left. split; [|exact Hc].
  cbn [s_txmap set_s_txmap]. unfold lookup. cbn [find fst]. rewrite N.eqb_refl. reflexivity.
Qed.

(** ** MeterValues queued before the transaction id is known *)

(** [mv] stays registered under [start]. *)
Definition waits (start mv : N) (s : st) : Prop :=
  exists l, lookup start (s_mvmap s) = Some l /\ In mv l.

Lemma lookup_cons {A} k j (v : A) l : lookup k ((j, v) :: l) = if N.eqb j k then Some v else lookup k l.
Proof. unfold lookup. cbn [find fst]. destruct (N.eqb j k); reflexivity. Qed.

Lemma mvmap_step s o start mv : meter_wait start mv [o] ->
  registered_only_under mv start s /\ waits start mv s ->
  registered_only_under mv start (fst (step s o)) /\ waits start mv (fst (step s o)).
Proof.
  intros Hs H. inversion Hs as [|? ? Ho _]; subst. destruct H as [H1 H2].
  assert (X : forall s', s_mvmap s' = s_mvmap s -> registered_only_under mv start s' /\ waits start mv s').
  { intros s' F. unfold registered_only_under, waits. rewrite F. split; assumption. }
  assert (E : forall s', fr s' = fr s -> registered_only_under mv start s' /\ waits start mv s').
  { intros s' F. unfold fr in F. injection F as _ _ _ F. apply X, F. }
  destruct o; cbn [step]; try contradiction; destruct (s_dead s); try (apply X; reflexivity).
  - apply E, fr_push_call.
  - apply E, fr_push_async.
  - unfold push_reply. destruct (negb _); [apply X; reflexivity|]. destruct (s_next s); [destruct (N.eqb _ _)|]; apply X; reflexivity.
  - destruct (fr_work now ok s) as [F|(x & F)]; [apply E, F|]. unfold fr in F. injection F as _ _ _ F. apply X, F.
  - apply X. unfold recv_result. destruct (s_fl s); [|reflexivity]. destruct (N.eqb _ _); [|reflexivity].
    unfold handle_call_result. destruct (resolvable _ _); [|reflexivity]. cbn [fst].
    destruct (is_tx _ _); [|destruct (check_queue _ _)]; reflexivity.
  - apply X. unfold recv_error_begin. destruct (s_fl s); [|reflexivity]. destruct (N.eqb _ _); reflexivity.
  - unfold recv_error_end. destruct (s_errs s); [apply X; reflexivity|]. apply E. rewrite fr_handle_failure. reflexivity.
  - unfold recv_error. destruct (s_fl s); [|apply X; reflexivity]. destruct (N.eqb _ _); [|apply X; reflexivity].
    pose proof (fr_handle_failure (Some id) newid now (set_s_next None s)) as F. unfold fr in F. injection F as _ _ _ F. apply X, F.
  - unfold timer_expire. destruct (s_armed s) as [d|]; [destruct (d <=? now)|]; apply X; reflexivity.
  - unfold timer_run. destruct (s_fired s); [|apply X; reflexivity]. apply E. rewrite fr_handle_failure. reflexivity.
  - destruct (s_armed s) as [d|]; [destruct (d <=? now)|]; try (apply X; reflexivity). apply E. rewrite fr_handle_failure. reflexivity.
  - destruct (s_nt s) as [d|]; [destruct (d <=? now)|]; apply X; reflexivity.
  - apply E. apply fr_resume.
  - apply E. apply fr_resume_timer.
  - cbn [fst]. unfold add_meter_id. rename start0 into a, mv0 into v.
    destruct (lookup a (s_mvmap s)) as [l|] eqn:El; split.
    + intros b l' [H|H] Hi; cbn in *.
      * injection H as <- <-. apply in_app_or in Hi as [Hi|[Hi|[]]]; [apply lookup_in in El; exact (H1 _ _ El Hi)|].
        subst v. symmetry. destruct (N.eq_dec a start); [congruence|]. exfalso. apply n. apply Ho. reflexivity.
      * unfold remove_key in H. apply filter_In in H as [H _]. exact (H1 _ _ H Hi).
    + destruct H2 as (l2 & L2 & I2). unfold waits. cbn [s_mvmap set_s_mvmap]. rewrite lookup_cons, lookup_remove.
      destruct (N.eqb_spec a start).
      * subst a. rewrite L2 in El. injection El as <-. exists (l2 ++ [v]). split; [reflexivity|]. apply in_or_app; left; exact I2.
      * destruct (N.eqb_spec start a); [congruence|]. exists l2. split; assumption.
    + intros b l' [H|H] Hi; cbn in *.
      * injection H as <- <-. destruct Hi as [Hi|[]]. subst v. apply Ho. reflexivity.
      * exact (H1 _ _ H Hi).
    + destruct H2 as (l2 & L2 & I2). unfold waits. cbn [s_mvmap set_s_mvmap]. rewrite lookup_cons.
      destruct (N.eqb_spec a start); [congruence|]. exists l2. split; assumption.
  - cbn [fst]. unfold start_handled. rename start0 into a.
    set (s1 := match lookup a (s_mvmap s) with Some _ => _ | None => _ end).
    assert (F : s_mvmap s1 = s_mvmap s) by (unfold s1; destruct (lookup a (s_mvmap s)); reflexivity).
    split.
    + intros b l' H Hi. cbn in H. unfold remove_key in H. apply filter_In in H as [H _]. rewrite F in H. exact (H1 _ _ H Hi).
    + destruct H2 as (l2 & L2 & I2). exists l2. split; [|exact I2]. cbn [s_mvmap set_s_mvmap]. rewrite lookup_remove, F.
      destruct (N.eqb_spec start a); [congruence|exact L2].
Qed.

Lemma mvmap_run os : forall s start mv, meter_wait start mv os ->
  registered_only_under mv start s /\ waits start mv s ->
  registered_only_under mv start (final s os) /\ waits start mv (final s os).
Proof.
  induction os as [|o os IH]; intros s start mv Hs H; [exact H|].
  inversion Hs as [|? ? Ho Hos]; subst. cbn [final]. apply IH; [exact Hos|].
  apply mvmap_step; [constructor; [exact Ho|constructor]|exact H].
Qed.

Lemma meter_gets_tx s start mv t os1 os2 :
  s_dead s = false -> registered_only_under mv start s -> meter_wait start mv os1 -> id_settled mv os2 ->
  let s1 := final s (AddMeter start mv :: os1) in
  s_dead s1 = false ->
  (forall m, s_fl s1 = Some m \/ In m (s_nq s1) -> m_id m <> mv) -> lookup mv (s_txmap s1) = None ->
  sent_with_tx mv t (outs (trace s1 (StartHandled start t :: os2))).
Proof.
  intros Hd Hr Hw Hs s1 Hd1 Hn Ht.
  assert (W : registered_only_under mv start s1 /\ waits start mv s1).
  { unfold s1. cbn [final]. apply mvmap_run; [exact Hw|]. cbn [step]. rewrite Hd. cbn [fst]. unfold add_meter_id.
    destruct (lookup start (s_mvmap s)) as [l|] eqn:El; split.
    - intros b l' [H|H] Hi; cbn in *; [congruence|]. unfold remove_key in H. apply filter_In in H as [H _]. exact (Hr _ _ H Hi).
    - exists (l ++ [mv]). split; [cbn [s_mvmap set_s_mvmap]; rewrite lookup_cons, N.eqb_refl; reflexivity|].
      apply in_or_app; right; left; reflexivity.
    - intros b l' [H|H] Hi; cbn in *; [congruence|]. exact (Hr _ _ H Hi).
    - exists [mv]. split; [cbn [s_mvmap set_s_mvmap]; rewrite lookup_cons, N.eqb_refl; reflexivity|left; reflexivity]. }
  clearbody s1. destruct W as [W1 (l & Wl & Wi)].
  cbn [trace step]. rewrite Hd1. cbn [fst snd]. rewrite outs_cons. cbn [app].
  unfold start_handled. rewrite Wl. apply stamped_run; [exact Hs| |].
  - intros a l' H Hi. cbn in H. unfold remove_key in H. apply filter_In in H as [H Ha]. cbn in Ha.
    apply (W1 _ _ H) in Hi. subst a. rewrite N.eqb_refl in Ha. discriminate.
  - right. right. split; [exact Ht|]. apply Forall_forall. intros m Hm. apply filter_In in Hm as [Hm Hid].
    apply N.eqb_eq in Hid. unfold all_msgs in Hm. cbn in Hm. apply in_app_or in Hm as [Hm|Hm].
    + exfalso. apply (Hn m); [left|exact Hid]. destruct (s_fl s1); [destruct Hm as [->|[]]; reflexivity|destruct Hm].
    + apply in_app_or in Hm as [Hm|Hm]; [exfalso; apply (Hn m); [right; exact Hm|exact Hid]|].
      apply in_map_iff in Hm as (x & <- & Hx).
      destruct (existsb (N.eqb (m_id x)) l) eqn:Ex; [reflexivity|]. exfalso.
      assert (existsb (N.eqb (m_id x)) l = true); [|congruence]. apply existsb_exists. exists mv. split; [exact Wi|].
      rewrite Hid. apply N.eqb_refl.
Qed.
