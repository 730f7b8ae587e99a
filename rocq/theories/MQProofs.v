(** Proofs about the message queue model. *)
From Coq Require Import List ZArith NArith Bool Lia Permutation.
From Verif Require Import MQModel MQSpec.
Import ListNotations.
Open Scope Z_scope.

(** ** Generic facts *)

Lemma mtype_eqb_eq a b : mtype_eqb a b = true <-> a = b.
Proof.
  destruct a, b; cbn; split; intro H; try discriminate; try reflexivity.
  - apply N.eqb_eq in H; congruence.
  - inversion H; apply N.eqb_refl.
Qed.

Lemma is_tx_spec v t : is_tx v t = transactional v t.
Proof. destruct v, t; reflexivity. Qed.

Lemma is_update_spec v m : is_update v m = true <-> update_msg v m.
Proof.
  unfold is_update, update_msg; destruct v, (m_type m); split; intro H; try discriminate; auto;
    destruct H as [[? H]|[? [H ?]]]; congruence.
Qed.

Lemma update_is_tx v m : is_update v m = true -> is_tx v (m_type m) = true.
Proof. unfold is_update; destruct v, (m_type m); intros; try discriminate; reflexivity. Qed.

Lemma trace_app s os1 os2 : trace s (os1 ++ os2) = trace s os1 ++ trace (final s os1) os2.
Proof. revert s; induction os1 as [|o q IH]; intros s; cbn; [reflexivity|]. f_equal. apply IH. Qed.

Lemma final_app s os1 os2 : final s (os1 ++ os2) = final (final s os1) os2.
Proof. revert s; induction os1 as [|o q IH]; intros s; cbn; [reflexivity|]. apply IH. Qed.

Lemma run_spec s os : run s os = (final s os, outs (trace s os)).
Proof.
  revert s; induction os as [|o q IH]; intros s; cbn; [reflexivity|].
  destruct (step s o) as [s1 t1] eqn:E. rewrite IH. reflexivity.
Qed.

Lemma outs_app t1 t2 : outs (t1 ++ t2) = outs t1 ++ outs t2.
Proof. apply flat_map_app. Qed.

(** *** Subsequences *)
Lemma subseq_refl {A} (l : list A) : subseq l l.
Proof. induction l; constructor; assumption. Qed.

Lemma subseq_trans {A} (a b c : list A) : subseq a b -> subseq b c -> subseq a c.
Proof.
  intros H1 H2; revert a H1; induction H2 as [l|x b c H IH|x b c H IH]; intros a H1.
  - inversion H1; constructor.
  - inversion H1; subst; constructor; auto.
  - constructor; auto.
Qed.

Lemma subseq_in {A} (a b : list A) x : subseq a b -> In x a -> In x b.
Proof.
  induction 1 as [|y a b H IH|y a b H IH]; cbn; intros Hin; [contradiction|destruct Hin as [->|]; auto|auto].
Qed.

Lemma subseq_app_l {A} (a b c : list A) : subseq b c -> subseq (a ++ b) (a ++ c).
Proof. induction a; cbn; [auto|]. constructor; auto. Qed.

Lemma subseq_app_r {A} (a b c : list A) : subseq a b -> subseq (a ++ c) (b ++ c).
Proof.
  induction 1 as [l|x a b H IH|x a b H IH]; cbn.
  - induction l; cbn; [apply subseq_refl|]. constructor; auto.
  - constructor; auto.
  - constructor; auto.
Qed.

Lemma subseq_appr {A} (a b : list A) : subseq a (a ++ b).
Proof. rewrite <- (app_nil_r a) at 1. apply subseq_app_l. constructor. Qed.

Lemma subseq_map {A B} (f : A -> B) a b : subseq a b -> subseq (map f a) (map f b).
Proof. induction 1; cbn; constructor; auto. Qed.

Lemma subseq_filter {A} (f : A -> bool) l : subseq (filter f l) l.
Proof. induction l as [|x l IH]; cbn; [constructor|]. destruct (f x); constructor; auto. Qed.

Lemma subseq_nodup {A} (a b : list A) : subseq a b -> NoDup b -> NoDup a.
Proof.
  induction 1 as [l|x a b H IH|x a b H IH]; intros Hn.
  - constructor.
  - inversion Hn; subst. constructor; auto. intro Hin. apply (subseq_in _ _ _ H) in Hin. contradiction.
  - inversion Hn; auto.
Qed.

Lemma subseq_length {A} (a b : list A) : subseq a b -> (length a <= length b)%nat.
Proof. induction 1; cbn; lia. Qed.

Lemma before_subseq {A} (p q : list A) a b : subseq p q -> before p a b -> before q a b.
Proof.
  intros Hs (Ha & Hb & H). split; [|split].
  - eapply subseq_in; eauto.
  - eapply subseq_in; eauto.
  - destruct H as [->|(l1 & l2 & -> & Hin)]; [left; reflexivity|]. right.
    clear Ha Hb. revert l1 Hs; induction q as [|y q IH]; intros l1 Hs.
    + inversion Hs as [l Hl| |]. destruct l1; discriminate.
    + inversion Hs as [|x p' q' Hs' |x p' q' Hs']; subst.
      * destruct l1; discriminate.
      * destruct l1 as [|z l1]; cbn in *.
        -- inversion H; subst. exists [], q. split; [reflexivity|]. eapply subseq_in; eauto.
        -- inversion H; subst. destruct (IH _ Hs') as (m1 & m2 & -> & Hm).
           exists (z :: m1), m2. split; [reflexivity|assumption].
      * destruct (IH _ Hs') as (m1 & m2 & -> & Hm). exists (y :: m1), m2. split; [reflexivity|assumption].
Qed.

(** *** Database *)
Lemma db_insert_fresh t m : ~ In (m_id m) (map r_uid t) -> db_insert t m = t ++ [row_of m].
Proof.
  intros H. unfold db_insert. destruct (existsb _ t) eqn:E; [|reflexivity].
  apply existsb_exists in E. destruct E as (r & Hin & Hr). apply N.eqb_eq in Hr.
  exfalso; apply H. rewrite <- Hr. apply in_map; assumption.
Qed.

Lemma remove_all_filter l t :
  remove_all t l = filter (fun r => negb (existsb (fun m => N.eqb (r_uid r) (m_init m)) l)) t.
Proof.
  unfold remove_all. revert t; induction l as [|m l IH]; intros t; cbn.
  - induction t as [|r t IHt]; cbn; congruence.
  - rewrite IH. unfold db_remove. clear. induction t as [|r t IHt]; cbn; [reflexivity|].
    destruct (N.eqb (r_uid r) (m_init m)); cbn; [assumption|].
    destruct (existsb _ l); cbn; congruence.
Qed.

(** ** Queue size policy *)

Lemma drop_updates_split v f q k d : drop_updates v f q = (k, d) ->
  subseq k q /\ subseq d q /\ Forall (fun m => is_update v m = true) d /\ Permutation (k ++ d) q.
Proof.
  revert f k d; induction q as [|m q IH]; intros f k d; cbn [drop_updates]; intros H.
  - inversion H; subst. repeat split; try constructor.
  - destruct (f && is_update v m && (1 <? qlen q)) eqn:E.
    + destruct (drop_updates v false q) as [k' d'] eqn:E'. inversion H; subst.
      destruct (IH _ _ _ E') as (H1 & H2 & H3 & H4).
      apply andb_prop in E as [E _]. apply andb_prop in E as [_ E].
      repeat split; try (constructor; assumption).
      rewrite <- Permutation_middle. constructor; assumption.
    + destruct (drop_updates v true q) as [k' d'] eqn:E'. inversion H; subst.
      destruct (IH _ _ _ E') as (H1 & H2 & H3 & H4).
      repeat split; try (constructor; assumption); assumption.
Qed.

Lemma drop_updates_length v f q k d : drop_updates v f q = (k, d) -> (length k + length d = length q)%nat.
Proof.
  intros H. destruct (drop_updates_split _ _ _ _ _ H) as (_ & _ & _ & Hp).
  apply Permutation_length in Hp. rewrite app_length in Hp. lia.
Qed.

Lemma drop_tx_split fuel v thr nq tq k d : drop_tx fuel v thr nq tq = (k, d) ->
  subseq k tq /\ Forall (fun m => is_update v m = true) d /\ Permutation (k ++ d) tq.
Proof.
  revert tq k d; induction fuel as [|n IH]; intros tq k d; cbn [drop_tx]; intros H.
  - inversion H; subst. rewrite app_nil_r. repeat split; [apply subseq_refl|constructor|apply Permutation_refl].
  - destruct (over thr nq tq).
    + destruct (drop_updates v true tq) as [tq' d1] eqn:E1.
      destruct (drop_updates_split _ _ _ _ _ E1) as (H1 & H2 & H3 & H4).
      destruct d1 as [|x d1].
      * inversion H; subst. repeat split; auto.
      * destruct (drop_tx n v thr nq tq') as [tq'' d'] eqn:E2. inversion H; subst.
        destruct (IH _ _ _ E2) as (G1 & G2 & G3).
        split; [eapply subseq_trans; eauto|]. split.
        -- change (x :: d1 ++ d') with ((x :: d1) ++ d'). apply Forall_app; split; assumption.
        -- rewrite <- H4. rewrite <- G3. change (x :: d1 ++ d') with ((x :: d1) ++ d').
           rewrite <- app_assoc. apply Permutation_app_head. apply Permutation_app_comm.
    + inversion H; subst. rewrite app_nil_r. repeat split; [apply subseq_refl|constructor|apply Permutation_refl].
Qed.

(** In a list without duplicate ids, removing the ids of the dropped part leaves the kept part. *)
Lemma filter_kept {A B} (f : A -> B) (eqb : B -> B -> bool) (Heq : forall x y, eqb x y = true <-> x = y)
      (q k d : list A) :
  subseq k q -> Permutation (k ++ d) q -> NoDup (map f q) ->
  filter (fun x => negb (existsb (fun y => eqb (f x) (f y)) d)) q = k.
Proof.
  intros Hs. revert d. induction Hs as [l|x a b H IH|x a b H IH]; intros d Hp Hn.
  - cbn in Hp. assert (Hall : forall x, In x l -> In x d) by (intros x Hx; eapply Permutation_in; [symmetry; eauto|auto]).
    clear Hp Hn. induction l as [|y l IHl]; cbn; [reflexivity|].
    assert (E : existsb (fun z => eqb (f y) (f z)) d = true).
    { apply existsb_exists. exists y. split; [apply Hall; left; reflexivity|apply Heq; reflexivity]. }
    rewrite E. cbn. apply IHl. intros z Hz; apply Hall; right; assumption.
  - cbn in *. inversion Hn as [|? ? Hnin Hn']; subst.
    apply Permutation_cons_inv in Hp.
    assert (E : existsb (fun z => eqb (f x) (f z)) d = false).
    { apply not_true_is_false. intro E. apply existsb_exists in E as (y & Hy & Hxy). apply Heq in Hxy.
      apply Hnin. rewrite Hxy. apply in_map. eapply Permutation_in; [exact Hp|]. apply in_or_app; right; assumption. }
    rewrite E. cbn. f_equal. apply IH; assumption.
  - cbn in *. inversion Hn as [|? ? Hnin Hn']; subst.
    assert (Hx : In x d).
    { assert (Hin : In x (a ++ d)) by (eapply Permutation_in; [symmetry; exact Hp|left; reflexivity]).
      apply in_app_or in Hin as [Hin|Hin]; [|assumption].
      exfalso. apply Hnin. apply in_map. eapply subseq_in; eauto. }
    assert (E : existsb (fun z => eqb (f x) (f z)) d = true).
    { apply existsb_exists. exists x. split; [assumption|apply Heq; reflexivity]. }
    rewrite E. cbn.
    apply in_split in Hx as (d1 & d2 & ->).
    assert (Hp' : Permutation (a ++ d1 ++ d2) b).
    { rewrite app_assoc in Hp. rewrite <- Permutation_middle in Hp. apply Permutation_cons_inv in Hp.
      rewrite app_assoc. assumption. }
    rewrite <- (IH (d1 ++ d2) Hp' Hn').
    apply filter_ext_in. intros z Hz. f_equal. rewrite !existsb_app. cbn.
    assert (Hzx : eqb (f z) (f x) = false).
    { apply not_true_is_false. intro E'. apply Heq in E'. apply Hnin. rewrite <- E'. apply in_map; assumption. }
    rewrite Hzx. reflexivity.
Qed.

(** The loop of the first phase ends because its condition is false, not because the fuel is exhausted. *)
Lemma drop_normal_spec fuel thr nq tq nq' d :
  (length nq <= fuel)%nat ->
  drop_normal fuel thr nq tq = (nq', d) ->
  nq = d ++ nq' /\ (nq' = [] \/ over thr nq' tq = false).
Proof.
  revert nq nq' d; induction fuel as [|n IH]; intros nq nq' d Hl; cbn [drop_normal]; intros H.
  - inversion H; subst. split; [reflexivity|]. left. destruct nq'; cbn in Hl; [reflexivity|lia].
  - destruct (over thr nq tq && _) eqn:E.
    + destruct (drop_normal n thr (skipn (drop_count thr nq) nq) tq) as [a b] eqn:E1. inversion H; subst.
      assert (Hc : (1 <= drop_count thr nq)%nat).
      { apply andb_prop in E as [_ E]. unfold drop_count, qlen. destruct nq; [discriminate|]. cbn [length]. lia. }
      apply IH in E1.
      * destruct E1 as [E1 E2]. split; [|assumption]. rewrite <- app_assoc, <- E1. symmetry. apply firstn_skipn.
      * rewrite skipn_length. lia.
    + inversion H; subst. split; [reflexivity|].
      apply andb_false_iff in E as [E|E]; [right; assumption|]. left. destruct nq'; [reflexivity|discriminate].
Qed.

Lemma drop_tx_exit fuel v thr nq tq k d :
  (length tq < fuel)%nat ->
  drop_tx fuel v thr nq tq = (k, d) ->
  over thr nq k = false \/ snd (drop_updates v true k) = [].
Proof.
  revert tq k d; induction fuel as [|n IH]; intros tq k d Hl; cbn [drop_tx]; intros H; [lia|].
  destruct (over thr nq tq) eqn:E.
  - destruct (drop_updates v true tq) as [tq' d1] eqn:E1.
    pose proof (drop_updates_length _ _ _ _ _ E1) as Hlen.
    destruct d1 as [|x d1].
    + inversion H; subst. right.
      assert (k = tq).
      { destruct (drop_updates_split _ _ _ _ _ E1) as (H1 & _ & _ & _). cbn in Hlen.
        clear - H1 Hlen. induction H1; cbn in *.
        - destruct l; [reflexivity|cbn in Hlen; lia].
        - f_equal. apply IHsubseq; lia.
        - apply subseq_length in H1. lia. }
      subst. rewrite E1. reflexivity.
    + destruct (drop_tx n v thr nq tq') as [tq'' d'] eqn:E2. inversion H; subst.
      eapply IH; [|exact E2]. cbn in Hlen. lia.
  - inversion H; subst. left; assumption.
Qed.

(** ** The database mirrors what is owed *)

Lemma map_filter_corr {A B C} (g : A -> C) (h : B -> C) (p : C -> bool) l l' :
  map g l = map h l' ->
  map g (filter (fun x => p (g x)) l) = map h (filter (fun y => p (h y)) l').
Proof.
  revert l'; induction l as [|x l IH]; intros [|y l'] H; cbn in *; try discriminate; [reflexivity|].
  injection H as H1 H2. rewrite H1. destruct (p (h y)); cbn; [rewrite H1; f_equal|]; apply IH; assumption.
Qed.

Definition ids (l : list msg) : list N := map m_init l.

Definition Inv (v : ver) (s : st) : Prop :=
  c_ver (s_cfg s) = v /\
  map row_data (s_dbt s) = map msg_data (owed v s) /\
  Forall (fun m => transactional v (m_type m) = true) (s_tq s) /\
  Forall (fun m => transactional v (m_type m) = false) (s_nq s) /\
  Forall (fun r => r_uid r = r_mid r) (s_dbt s) /\
  Forall (fun r => transactional v (r_type r) = false) (s_dbn s) /\
  NoDup (ids (owed v s)).

Lemma ids_of_data l l' : map msg_data l = map msg_data l' -> ids l = ids l'.
Proof.
  intros H. unfold ids. apply (f_equal (map (fun x : N * mtype * bool * N => fst (fst (fst x))))) in H.
  rewrite !map_map in H. exact H.
Qed.

Lemma uids_of_data t l : map row_data t = map msg_data l -> map r_uid t = ids l.
Proof.
  intros H. unfold ids. apply (f_equal (map (fun x : N * mtype * bool * N => fst (fst (fst x))))) in H.
  rewrite !map_map in H. exact H.
Qed.

Lemma Inv_ext v s s' :
  c_ver (s_cfg s') = c_ver (s_cfg s) -> map msg_data (owed v s') = map msg_data (owed v s) ->
  s_dbt s' = s_dbt s -> s_dbn s' = s_dbn s ->
  Forall (fun m => transactional v (m_type m) = true) (s_tq s') ->
  Forall (fun m => transactional v (m_type m) = false) (s_nq s') ->
  Inv v s -> Inv v s'.
Proof.
  intros E1 E2 E3 E4 E5 E6 (H1 & H2 & H3 & H4 & H5 & H6 & H7).
  unfold Inv. rewrite E1, E2, E3, E4. repeat (split; [assumption|]).
  rewrite (ids_of_data _ _ E2). assumption.
Qed.

Lemma Forall_subseq {A} (P : A -> Prop) a b : subseq a b -> Forall P b -> Forall P a.
Proof. intros Hs Hf. rewrite Forall_forall in *. intros x Hx. apply Hf. eapply subseq_in; eauto. Qed.

Lemma Forall_filter {A} (P : A -> Prop) f l : Forall P l -> Forall P (filter f l).
Proof. apply Forall_subseq, subseq_filter. Qed.

Lemma remove_all_Forall (P : row -> Prop) l t : Forall P t -> Forall P (remove_all t l).
Proof. rewrite remove_all_filter. apply Forall_filter. Qed.

Lemma check_sizes_inv v s : Inv v s ->
  Inv v (fst (check_sizes s)) /\ subseq (ids (owed v (fst (check_sizes s)))) (ids (owed v s)).
Proof.
  intros H. unfold check_sizes. destruct (over _ _ _) eqn:Eo.
  2: { split; [assumption|apply subseq_refl]. }
  destruct (drop_normal _ _ _ _) as [nq' dn] eqn:En.
  destruct (drop_tx _ _ _ _ _) as [tq' dt] eqn:Et.
  destruct H as (H1 & H2 & H3 & H4 & H5 & H6 & H7).
  apply drop_normal_spec in En; [|lia]. destruct En as [En _].
  destruct (drop_tx_split _ _ _ _ _ _ _ Et) as (G1 & G2 & G3).
  cbn [fst]. unfold owed in *. cbn in H7 |- *.
  set (fl := match s_fl s with Some m => if transactional v (m_type m) then [m] else [] | None => [] end) in *.
  assert (Hsub : subseq (fl ++ tq') (fl ++ s_tq s)) by (apply subseq_app_l; assumption).
  split; [|apply subseq_map; assumption].
  unfold Inv, owed. cbn. fold fl. repeat split.
  - assumption.
  - rewrite remove_all_filter.
    set (p := fun x : N * mtype * bool * N => negb (existsb (fun m => N.eqb (fst (fst (fst x))) (m_init m)) dt)).
    change (filter _ (s_dbt s)) with (filter (fun r => p (row_data r)) (s_dbt s)).
    rewrite (map_filter_corr row_data msg_data p _ _ H2). f_equal.
    unfold p. cbn. rewrite filter_app. f_equal.
    + assert (Hfl : forall m, In m fl -> existsb (fun m0 => N.eqb (m_init m) (m_init m0)) dt = false).
      { intros m Hm. apply not_true_is_false. intro E. apply existsb_exists in E as (y & Hy & Hyx).
        apply N.eqb_eq in Hyx. unfold ids in H7. rewrite map_app in H7.
        assert (Hin : In (m_init m) (map m_init (s_tq s))).
        { rewrite Hyx. apply in_map. eapply Permutation_in; [exact G3|]. apply in_or_app; right; assumption. }
        clear - Hm Hin H7. induction fl as [|z fl IH]; [contradiction|]. cbn in H7. inversion H7; subst.
        destruct Hm as [->|Hm]; [|auto]. apply H1. apply in_or_app; right; assumption. }
      clear - Hfl. induction fl as [|z fl IH]; cbn; [reflexivity|].
      rewrite Hfl; [|left; reflexivity]. cbn. f_equal. apply IH. intros m Hm; apply Hfl; right; assumption.
    + apply (filter_kept m_init N.eqb N.eqb_eq); auto.
      unfold ids in H7. rewrite map_app in H7. clear - H7.
      induction (map m_init fl); cbn in *; [assumption|]. inversion H7; auto.
  - eapply Forall_subseq; eauto.
  - rewrite En in H4. apply Forall_app in H4. tauto.
  - apply remove_all_Forall; assumption.
  - destruct (c_qall (s_cfg s)); [apply remove_all_Forall|]; assumption.
  - eapply subseq_nodup; [apply subseq_map; exact Hsub|assumption].
Qed.

Lemma owed_app v s m : owed v (set_s_tq (s_tq s ++ [m]) s) = owed v s ++ [m].
Proof. unfold owed. cbn. rewrite app_assoc. reflexivity. Qed.

Lemma add_tx_inv v s m :
  Inv v s -> transactional v (m_type m) = true -> m_id m = m_init m -> ~ In (m_init m) (ids (owed v s)) ->
  Inv v (fst (add_tx m s)) /\ subseq (ids (owed v (fst (add_tx m s)))) (ids (owed v s) ++ [m_init m]).
Proof.
  intros H Htx Hid Hn. unfold add_tx.
  set (s1 := set_s_new true _).
  assert (Ho : owed v s1 = owed v s ++ [m]).
  { unfold owed, s1. cbn. rewrite app_assoc. reflexivity. }
  assert (Hi : Inv v s1).
  { destruct H as (H1 & H2 & H3 & H4 & H5 & H6 & H7).
    assert (Hd : s_dbt s1 = s_dbt s ++ [row_of m]).
    { unfold s1; cbn. apply db_insert_fresh. rewrite (uids_of_data _ _ H2), Hid. assumption. }
    unfold Inv. rewrite Hd, Ho. repeat split.
    - exact H1.
    - rewrite !map_app, H2. cbn. unfold row_data, row_of, msg_data. cbn. rewrite Hid. reflexivity.
    - unfold s1; cbn. apply Forall_app; split; [assumption|]. constructor; [assumption|constructor].
    - exact H4.
    - apply Forall_app; split; [assumption|]. constructor; [reflexivity|constructor].
    - exact H6.
    - unfold ids. rewrite map_app. cbn. apply NoDup_rev in H7. rewrite <- (rev_involutive (_ ++ _)).
      apply NoDup_rev. rewrite rev_app_distr. cbn. constructor; [|assumption].
      rewrite <- in_rev. assumption. }
  destruct (check_sizes_inv v s1 Hi) as [A B]. split; [assumption|].
  rewrite Ho in B. unfold ids in *. rewrite map_app in B. exact B.
Qed.

Lemma add_normal_inv v s m :
  Inv v s -> transactional v (m_type m) = false ->
  Inv v (fst (add_normal m s)) /\ subseq (ids (owed v (fst (add_normal m s)))) (ids (owed v s)).
Proof.
  intros H Htx. unfold add_normal. set (s1 := set_s_new true _).
  assert (Hi : Inv v s1).
  { destruct H as (H1 & H2 & H3 & H4 & H5 & H6 & H7). unfold Inv. repeat split; try assumption.
    - unfold s1; cbn.
      assert (A : Forall (fun m => transactional v (m_type m) = false) (m :: s_nq s)) by (constructor; assumption).
      assert (B : Forall (fun m => transactional v (m_type m) = false) (s_nq s ++ [m]))
        by (apply Forall_app; split; [assumption|constructor; [assumption|constructor]]).
      clear - A B. destruct (m_type m); assumption.
    - unfold s1; cbn. destruct (check_queue _ _); [|assumption]. unfold db_insert.
      destruct (existsb _ _); [assumption|]. apply Forall_app; split; [assumption|]. constructor; [assumption|constructor]. }
  destruct (check_sizes_inv v s1 Hi) as [A B]. split; assumption.
Qed.

(** *** The worker *)

Lemma find_allowed_spec q now acc pre m post : find_allowed q now acc = Some (pre, m, post) ->
  q = pre ++ m :: post /\ allowed m now acc = true /\ Forall (fun x => allowed x now acc = false) pre.
Proof.
  revert pre m post; induction q as [|x q IH]; intros pre m post; cbn; [discriminate|].
  destruct (allowed x now acc) eqn:E.
  - intros H; inversion H; subst. repeat split; auto.
  - destruct (find_allowed q now acc) as [[[a b] c]|] eqn:E'; [|discriminate].
    intros H; inversion H; subst. destruct (IH _ _ _ eq_refl) as (-> & H2 & H3). repeat split; auto.
Qed.

Lemma select_tx s now m rest : select s now = SelTx m rest -> s_tq s = m :: rest /\ allowed m now (s_acc s) = true.
Proof.
  unfold select. destruct (s_tq s) as [|t r].
  - destruct (find_allowed _ _ _) as [[[? ?] ?]|]; discriminate.
  - destruct (allowed t now (s_acc s)) eqn:E; cbn.
    + destruct (find_allowed _ _ _) as [[[? n] ?]|].
      * destruct (mtype_eqb _ _); [discriminate|]. destruct (_ <=? _); [|discriminate].
        intros H; inversion H; subst; auto.
      * intros H; inversion H; subst; auto.
    + destruct (find_allowed _ _ _) as [[[? n] ?]|]; discriminate.
Qed.

Lemma select_normal s now pre m post : select s now = SelNormal pre m post ->
  find_allowed (s_nq s) now (s_acc s) = Some (pre, m, post).
Proof.
  unfold select. destruct (s_tq s) as [|t r].
  - destruct (find_allowed _ _ _) as [[[? ?] ?]|]; congruence.
  - destruct (allowed t now (s_acc s)) eqn:E; cbn.
    + destruct (find_allowed _ _ _) as [[[? n] ?]|]; [|discriminate].
      destruct (mtype_eqb _ _); [congruence|]. destruct (_ <=? _); congruence.
    + destruct (find_allowed _ _ _) as [[[? n] ?]|]; congruence.
Qed.

Lemma prepare_data m l : msg_data (prepare m l) = msg_data m.
Proof. unfold prepare. destruct (lookup _ l); reflexivity. Qed.
Lemma prepare_type m l : m_type (prepare m l) = m_type m.
Proof. unfold prepare. destruct (lookup _ l); reflexivity. Qed.
Lemma mark_offline_data m : msg_data (mark_offline m) = msg_data m.
Proof. unfold mark_offline. destruct (m_type m) eqn:E; try reflexivity. unfold msg_data; cbn; rewrite E. reflexivity. Qed.
Lemma mark_offline_type m : m_type (mark_offline m) = m_type m.
Proof. unfold mark_offline. destruct (m_type m) eqn:E; cbn; auto. Qed.
Lemma data_init m m' : msg_data m = msg_data m' -> m_init m = m_init m'.
Proof. unfold msg_data; congruence. Qed.

(** Every operation that only touches other fields. *)
Lemma finish_core s :
  s_cfg (finish_iteration s) = s_cfg s /\ s_fl (finish_iteration s) = s_fl s /\ s_tq (finish_iteration s) = s_tq s /\
  s_nq (finish_iteration s) = s_nq s /\ s_dbt (finish_iteration s) = s_dbt s /\ s_dbn (finish_iteration s) = s_dbn s.
Proof. unfold finish_iteration. destruct (no_messages s); repeat split. Qed.

Lemma Inv_finish v s : Inv v s -> Inv v (finish_iteration s).
Proof.
  intros H. destruct (finish_core s) as (E1 & E2 & E3 & E4 & E5 & E6).
  unfold Inv, owed in *. rewrite E1, E2, E3, E4, E5, E6. exact H.
Qed.

Lemma owed_finish v s : owed v (finish_iteration s) = owed v s.
Proof. destruct (finish_core s) as (E1 & E2 & E3 & E4 & E5 & E6). unfold owed. rewrite E2, E3. reflexivity. Qed.

(** [transmit] keeps what is owed. *)
Lemma transmit_inv v s now sel m ok :
  Inv v s -> s_fl s = None ->
  (sel = SelTx m (tl (s_tq s)) /\ s_tq s = m :: tl (s_tq s) \/
   exists pre post, sel = SelNormal pre m post /\ s_nq s = pre ++ m :: post) ->
  Inv v (fst (transmit sel m now ok s)) /\ map msg_data (owed v (fst (transmit sel m now ok s))) = map msg_data (owed v s).
Proof.
  intros H Hfl Hsel. pose proof H as (H1 & H2 & H3 & H4 & H5 & H6 & H7).
  unfold transmit. set (m' := prepare m (s_txmap s)).
  assert (Hd : msg_data m' = msg_data m) by apply prepare_data.
  assert (Ht : m_type m' = m_type m) by apply prepare_type.
  rewrite is_tx_spec, H1, Ht.
  assert (Key : forall s', c_ver (s_cfg s') = v -> map msg_data (owed v s') = map msg_data (owed v s) ->
            s_dbt s' = s_dbt s -> s_dbn s' = s_dbn s ->
            Forall (fun m => transactional v (m_type m) = true) (s_tq s') ->
            Forall (fun m => transactional v (m_type m) = false) (s_nq s') ->
            Inv v (finish_iteration s') /\ map msg_data (owed v (finish_iteration s')) = map msg_data (owed v s)).
  { intros s' A B C D E F. rewrite owed_finish. split; [|assumption]. apply Inv_finish.
    eapply Inv_ext; [rewrite A; symmetry; exact H1|exact B|assumption..]. }
  destruct Hsel as [[-> Htq]|(pre & post & -> & Hnq)].
  - rewrite Htq in H3. inversion H3 as [|? ? Hm Hr]; subst.
    set (rest := tl (s_tq s)) in *. rewrite Hm.
    destruct ok; cbn [fst].
    + apply Key; cbn; auto.
      unfold owed. cbn. rewrite Hfl, Ht, Hm, Htq. cbn. rewrite Hd. reflexivity.
    + apply Key; cbn; auto.
      * unfold owed. cbn. rewrite Hfl, Htq. cbn. rewrite mark_offline_data, Hd. reflexivity.
      * constructor; [rewrite mark_offline_type, Ht; assumption|assumption].
  - rewrite Hnq in H4. apply Forall_app in H4 as [Hp Hm']. inversion Hm' as [|? ? Hm Hq]; subst. rewrite Hm.
    assert (Hnq' : Forall (fun m => transactional (c_ver (s_cfg s)) (m_type m) = false) (pre ++ m' :: post)).
    { apply Forall_app; split; [assumption|]. constructor; [rewrite Ht; assumption|assumption]. }
    destruct ok; cbn [fst].
    + apply Key; cbn; auto.
      * unfold owed. cbn. rewrite Hfl, Ht, Hm. reflexivity.
      * apply Forall_app; split; assumption.
    + destruct (check_queue _ _); cbn [fst].
      * apply Key; cbn; auto. unfold owed. cbn. rewrite Hfl. reflexivity.
      * destruct (resolvable _ _); cbn [fst].
        -- apply Key; cbn; auto.
           ++ unfold owed. cbn. rewrite Hfl. reflexivity.
           ++ destruct pre; cbn in *; [assumption|]. inversion Hnq'; assumption.
        -- unfold owed; cbn. rewrite Hfl. cbn. split; [|reflexivity].
           eapply Inv_ext; [..|exact H]; cbn; auto.
           rewrite Hnq. apply Forall_app; split; assumption.
Qed.

Lemma Inv_alive v s b : Inv v s -> Inv v (set_s_alive b s).
Proof. intros H; exact H. Qed.

Lemma iterate_inv v s now ok : Inv v s ->
  Inv v (fst (iterate now ok s)) /\ map msg_data (owed v (fst (iterate now ok s))) = map msg_data (owed v s).
Proof.
  intros H. unfold iterate.
  destruct (no_messages s); [split; [assumption|reflexivity]|].
  destruct (s_paused s); [split; [assumption|reflexivity]|].
  destruct (s_fl s) eqn:Hfl; [split; [assumption|reflexivity]|].
  destruct (select s now) as [|pre m post|m rest] eqn:Hs.
  - split; [exact H|reflexivity].
  - destruct (held_back s m); [split; [assumption|reflexivity]|].
    apply transmit_inv; auto. right. apply select_normal, find_allowed_spec in Hs. exists pre, post. tauto.
  - destruct (held_back s m); [split; [assumption|reflexivity]|].
    apply transmit_inv; auto. left. apply select_tx in Hs as [Hs _]. rewrite Hs. cbn. auto.
Qed.

Lemma work_inv v s now ok : Inv v s ->
  Inv v (fst (work now ok s)) /\ map msg_data (owed v (fst (work now ok s))) = map msg_data (owed v s).
Proof.
  intros H. unfold work.
  destruct (negb (s_alive s)); [split; [assumption|reflexivity]|].
  destruct (negb (wake s)); [split; [assumption|reflexivity]|].
  destruct (iterate_inv v s now ok H) as [A B].
  destruct (iterate now ok s) as [s' o]; cbn [fst] in *. split; [exact A|exact B].
Qed.

(** *** Responses *)

Lemma owed_in_flight v s m : s_fl s = Some m -> transactional v (m_type m) = true -> owed v s = m :: s_tq s.
Proof. intros H1 H2. unfold owed. rewrite H1, H2. reflexivity. Qed.
Lemma owed_in_flight_n v s m : s_fl s = Some m -> transactional v (m_type m) = false -> owed v s = s_tq s.
Proof. intros H1 H2. unfold owed. rewrite H1, H2. reflexivity. Qed.
Lemma owed_idle v s : s_fl s = None -> owed v s = s_tq s.
Proof. intros H1. unfold owed. rewrite H1. reflexivity. Qed.

Lemma db_remove_head (m : msg) (q : list msg) t :
  map row_data t = map msg_data (m :: q) -> NoDup (ids (m :: q)) ->
  map row_data (db_remove t (m_init m)) = map msg_data q.
Proof.
  intros H Hn. unfold db_remove.
  set (p := fun x : N * mtype * bool * N => negb (N.eqb (fst (fst (fst x))) (m_init m))).
  change (filter _ t) with (filter (fun r => p (row_data r)) t).
  rewrite (map_filter_corr row_data msg_data p _ _ H). f_equal.
  unfold p. cbn. rewrite N.eqb_refl. cbn. inversion Hn as [|? ? Hni _]; subst. clear - Hni.
  induction q as [|x q IH]; cbn; [reflexivity|].
  destruct (N.eqb_spec (m_init x) (m_init m)) as [E|E]; cbn.
  - exfalso. apply Hni. left. assumption.
  - f_equal. apply IH. intro Hin. apply Hni. right. assumption.
Qed.

(** The message in flight leaves the station and the tables. *)
Lemma Inv_forget_tx v s m s' :
  Inv v s -> s_fl s = Some m -> transactional v (m_type m) = true ->
  s_cfg s' = s_cfg s -> s_fl s' = None -> s_tq s' = s_tq s -> s_nq s' = s_nq s ->
  s_dbt s' = db_remove (s_dbt s) (m_init m) -> s_dbn s' = s_dbn s ->
  Inv v s' /\ ids (owed v s) = m_init m :: ids (owed v s').
Proof.
  intros (H1 & H2 & H3 & H4 & H5 & H6 & H7) Hf Ht E1 E2 E3 E4 E5 E6.
  rewrite (owed_in_flight v s m Hf Ht) in *.
  assert (Ho : owed v s' = s_tq s) by (rewrite owed_idle; assumption).
  unfold Inv. rewrite Ho, E1, E3, E4, E5, E6. split; [|reflexivity].
  repeat split; auto.
  - apply db_remove_head; assumption.
  - apply Forall_filter; assumption.
  - inversion H7; assumption.
Qed.

Lemma Inv_forget_normal v s m s' :
  Inv v s -> s_fl s = Some m -> transactional v (m_type m) = false ->
  s_cfg s' = s_cfg s -> s_fl s' = None -> s_tq s' = s_tq s -> s_nq s' = s_nq s ->
  s_dbt s' = s_dbt s -> (s_dbn s' = s_dbn s \/ s_dbn s' = db_remove (s_dbn s) (m_init m)) ->
  Inv v s' /\ owed v s' = owed v s.
Proof.
  intros (H1 & H2 & H3 & H4 & H5 & H6 & H7) Hf Ht E1 E2 E3 E4 E5 E6.
  rewrite (owed_in_flight_n v s m Hf Ht) in *.
  assert (Ho : owed v s' = s_tq s) by (rewrite owed_idle; assumption).
  unfold Inv. rewrite Ho, E1, E3, E4, E5. split; [|reflexivity].
  repeat split; auto.
  destruct E6 as [->| ->]; [assumption|apply Forall_filter; assumption].
Qed.

Definition Good (v : ver) (s s' : st) : Prop := Inv v s' /\ subseq (ids (owed v s')) (ids (owed v s)).

Lemma Good_refl v s : Inv v s -> Good v s s.
Proof. intros H; split; [assumption|apply subseq_refl]. Qed.

Lemma Good_same v s s' :
  Inv v s -> s_cfg s' = s_cfg s -> s_fl s' = s_fl s -> s_tq s' = s_tq s -> s_nq s' = s_nq s -> s_dbt s' = s_dbt s ->
  s_dbn s' = s_dbn s -> Good v s s'.
Proof.
  intros H E1 E2 E3 E4 E5 E6. unfold Good, Inv, owed in *. rewrite E1, E2, E3, E4, E5, E6.
  split; [exact H|apply subseq_refl].
Qed.

Lemma handle_call_result_good v s m body :
  Inv v s -> s_fl s = Some m -> Good v s (fst (handle_call_result m body s)).
Proof.
  intros H Hf. unfold handle_call_result.
  pose proof H as (H1 & _).
  rewrite is_tx_spec, H1.
  destruct (resolvable _ _); [|apply Good_refl; assumption].
  destruct (transactional v (m_type m)) eqn:Ht; cbn [fst].
  - match goal with |- Good _ _ ?x => destruct (Inv_forget_tx v s m x) as [A B]; auto end.
    split; [exact A|]. rewrite B. constructor. apply subseq_refl.
  - destruct (check_queue _ _);
      (match goal with |- Good _ _ ?x => destruct (Inv_forget_normal v s m x) as [A B]; auto end;
       split; [exact A|rewrite B; apply subseq_refl]).
Qed.

Lemma requeued_data m i ts : msg_data (requeued m i ts) = msg_data m.
Proof. reflexivity. Qed.

Lemma handle_failure_good v s err newid now :
  Inv v s -> Good v s (fst (handle_failure err newid now s)).
Proof.
  intros H. unfold handle_failure. destruct (s_fl s) as [m|] eqn:Hf.
  2: { apply Good_same; auto. }
  pose proof H as (H1 & H2 & H3 & H4 & H5 & H6 & H7).
  rewrite is_tx_spec, H1.
  destruct (transactional v (m_type m)) eqn:Ht; cbn [orb].
  - destruct (m_att m <? _).
    + cbn [fst].
      match goal with |- Good _ _ ?x => assert (E : map msg_data (owed v x) = map msg_data (owed v s)) end.
      { rewrite (owed_in_flight v s m Hf Ht). rewrite owed_idle by reflexivity. reflexivity. }
      split.
      * apply (Inv_ext v s); [reflexivity|exact E|reflexivity|reflexivity| | |exact H]; cbn; [|exact H4].
        constructor; [exact Ht|exact H3].
      * rewrite (ids_of_data _ _ E). apply subseq_refl.
    + destruct (resolvable _ _); cbn [fst].
      * match goal with |- Good _ _ ?x => destruct (Inv_forget_tx v s m x) as [A B]; auto end.
        split; [exact A|]. rewrite B. constructor. apply subseq_refl.
      * apply Good_same; auto.
  - assert (Hq : forall i ts nt, Good v s (reset_in_flight (set_s_nt nt (set_s_nq (requeued m i ts :: s_nq s) s)))).
    { intros i ts nt.
      match goal with |- Good _ _ ?x => assert (E : map msg_data (owed v x) = map msg_data (owed v s)) end.
      { rewrite (owed_in_flight_n v s m Hf Ht). rewrite owed_idle by reflexivity. reflexivity. }
      split; [|rewrite (ids_of_data _ _ E); apply subseq_refl].
      apply (Inv_ext v s); [reflexivity|exact E|reflexivity|reflexivity| | |exact H]; cbn; [exact H3|].
      constructor; [exact Ht|exact H4]. }
    destruct (check_queue _ _).
    + destruct (m_att m <? _); [apply Hq|].
      destruct (resolvable _ _); cbn [fst].
      * match goal with |- Good _ _ ?x => destruct (Inv_forget_normal v s m x) as [A B]; auto end.
        split; [exact A|rewrite B; apply subseq_refl].
      * apply Good_same; auto.
    + destruct (mtype_eqb _ _); [apply Hq|].
      destruct (resolvable _ _); cbn [fst].
      * match goal with |- Good _ _ ?x => destruct (Inv_forget_normal v s m x) as [A B]; auto end.
        split; [exact A|rewrite B; apply subseq_refl].
      * apply Good_same; auto.
Qed.

Lemma Good_via v s s1 s2 :
  Inv v s -> s_cfg s1 = s_cfg s -> s_fl s1 = s_fl s -> s_tq s1 = s_tq s -> s_nq s1 = s_nq s -> s_dbt s1 = s_dbt s ->
  s_dbn s1 = s_dbn s -> (Inv v s1 -> Good v s1 s2) -> Good v s s2.
Proof.
  intros H E1 E2 E3 E4 E5 E6 G. destruct (Good_same v s s1 H E1 E2 E3 E4 E5 E6) as [A _].
  destruct (G A) as [B C]. split; [assumption|].
  replace (owed v s) with (owed v s1) by (unfold owed; rewrite E2, E3; reflexivity). assumption.
Qed.

(** *** Restart *)

Lemma number_rows_data h l : Forall (fun r => r_uid r = r_mid r) l ->
  map msg_data (number_rows h l) = map row_data l.
Proof.
  revert h; induction l as [|r l IH]; intros h H; cbn; [reflexivity|]. inversion H; subst.
  rewrite IH by assumption. f_equal. unfold msg_data, row_data, msg_of_row. cbn. congruence.
Qed.

Lemma number_rows_type h l P : Forall (fun r => P (r_type r)) l -> Forall (fun m => P (m_type m)) (number_rows h l).
Proof. revert h; induction l as [|r l IH]; intros h H; cbn; [constructor|]. inversion H; subst. constructor; auto. Qed.

Lemma load_persisted_fields ig s :
  let s' := load_persisted ig s in
  s_cfg s' = s_cfg s /\ s_fl s' = s_fl s /\ s_acc s' = s_acc s /\ s_paused s' = s_paused s /\ s_running s' = s_running s /\
  exists h1 h2,
    s_nq s' = s_nq s ++ number_rows h1 (filter (fun r => negb (ig && mtype_eqb (r_type r) TSecurity)) (s_dbn s)) /\
    s_tq s' = s_tq s ++ number_rows h2 (filter (fun r => negb (ig && mtype_eqb (r_type r) TSecurity)) (s_dbt s)) /\
    s_dbt s' = filter (fun r => negb (ig && mtype_eqb (r_type r) TSecurity)) (s_dbt s) /\
    s_dbn s' = if c_qall (s_cfg s) then filter (fun r => negb (ig && mtype_eqb (r_type r) TSecurity)) (s_dbn s) else [].
Proof.
  unfold load_persisted. cbn zeta.
  set (kn := filter _ (s_dbn s)). set (kt := filter _ (s_dbt s)).
  assert (E : forall s2, (match s_dbn s with [] => match s_dbt s with [] => s2 | _ => set_s_new true s2 end
                                       | _ => set_s_new true s2 end) = s2 \/
              (match s_dbn s with [] => match s_dbt s with [] => s2 | _ => set_s_new true s2 end
                                       | _ => set_s_new true s2 end) = set_s_new true s2).
  { intros s2. destruct (s_dbn s), (s_dbt s); auto. }
  match goal with |- context [match s_dbn s with [] => match s_dbt s with [] => ?x | _ => _ end | _ => _ end] =>
    destruct (E x) as [-> | ->] end; cbn;
  (repeat split; exists (s_gh s), (s_gh s + N.of_nat (length kn))%N; repeat split).
Qed.

Lemma restart_good v s c ig : Inv v s -> c_ver c = v -> Good v s (fst (step s (Restart c ig))).
Proof.
  intros (H1 & H2 & H3 & H4 & H5 & H6 & H7) Hc. cbn [step fst].
  set (s0 := init c _ _ _ _).
  destruct (load_persisted_fields ig s0) as (E1 & E2 & _ & _ & _ & h1 & h2 & E3 & E4 & E5 & E6).
  set (s' := load_persisted ig s0) in *. clearbody s'.
  set (keep := fun r => negb (ig && mtype_eqb (r_type r) TSecurity)) in *.
  cbn in E1, E2, E3, E4, E5, E6.
  assert (Ho : owed v s' = number_rows h2 (filter keep (s_dbt s))).
  { rewrite owed_idle by assumption. assumption. }
  assert (Hu : Forall (fun r => r_uid r = r_mid r) (filter keep (s_dbt s))) by (apply Forall_filter; assumption).
  assert (Hd : map msg_data (owed v s') = map row_data (filter keep (s_dbt s))) by (rewrite Ho; apply number_rows_data; assumption).
  assert (Hs : subseq (ids (owed v s')) (ids (owed v s))).
  { rewrite <- (uids_of_data _ _ H2). rewrite <- (uids_of_data _ _ (eq_sym Hd)).
    apply subseq_map, subseq_filter. }
  assert (Ht : Forall (fun r => transactional v (r_type r) = true) (s_dbt s)).
  { assert (Ho' : Forall (fun m => transactional v (m_type m) = true) (owed v s)).
    { unfold owed. apply Forall_app; split; [|assumption].
      destruct (s_fl s) as [m|]; [|constructor]. destruct (transactional v (m_type m)) eqn:E; constructor; auto. }
    clear - H2 Ho'. revert H2 Ho'. generalize (owed v s) (s_dbt s). intros l t; revert l.
    induction t as [|r t IH]; intros [|m l] E F; try discriminate; constructor.
    - inversion F; subst. unfold row_data, msg_data in E. cbn in E. congruence.
    - inversion F; subst. cbn in E. eapply IH; [|eassumption]. congruence. }
  split; [|assumption].
  unfold Inv. rewrite E1, E3, E4, E5, E6. repeat split; auto.
  - apply (number_rows_type _ _ (fun t => transactional v t = true)). apply Forall_filter; assumption.
  - apply (number_rows_type _ _ (fun t => transactional v t = false)). apply Forall_filter; assumption.
  - destruct (c_qall c); [apply Forall_filter; assumption|constructor].
  - eapply subseq_nodup; eassumption.
Qed.

Lemma start_handled_good v s a t : Inv v s -> Good v s (start_handled a t s).
Proof.
  intros H. unfold start_handled.
  destruct (lookup a (s_mvmap s)) as [l|]; [|apply Good_same; auto].
  set (f := fun m => if existsb (N.eqb (m_id m)) l then set_tx t m else m).
  assert (Hf : forall q, map msg_data (map f q) = map msg_data q).
  { intros q. rewrite map_map. apply map_ext. intros m. unfold f. destruct (existsb _ l); reflexivity. }
  match goal with |- Good _ _ ?x => assert (E : map msg_data (owed v x) = map msg_data (owed v s)) end.
  { unfold owed. cbn. rewrite !map_app. f_equal. apply Hf. }
  split; [|rewrite (ids_of_data _ _ E); apply subseq_refl].
  pose proof H as (H1 & H2 & H3 & H4 & H5 & H6 & H7).
  apply (Inv_ext v s); [reflexivity|exact E|reflexivity|reflexivity| | |exact H]; cbn; [|exact H4].
  clear - H3. induction (s_tq s) as [|x q IH]; cbn; [constructor|]. inversion H3; subst.
  constructor; [|auto]. unfold f. destruct (existsb _ l); assumption.
Qed.

Lemma NoDup_app_notin {A} (l : list A) x : NoDup (l ++ [x]) -> ~ In x l.
Proof. intros H. apply NoDup_remove_2 in H. rewrite app_nil_r in H. assumption. Qed.

Lemma push_call_inv v s k now stall : Inv v s -> NoDup (ids (owed v s) ++ pushes v [Push k now stall]) ->
  Inv v (fst (push_call k now stall s)) /\
  subseq (ids (owed v (fst (push_call k now stall s)))) (ids (owed v s) ++ pushes v [Push k now stall]).
Proof.
  intros H Hn. unfold push_call. pose proof H as (H1 & _). rewrite is_tx_spec, H1.
  cbn [pushes flat_map] in *. rewrite app_nil_r in *.
  destruct (negb (s_running s)); [split; [assumption|apply subseq_appr]|].
  destruct (transactional v (k_type k)) eqn:Ht.
  - apply (add_tx_inv v (set_s_gh (s_gh s + 1)%N s) (mk_msg (s_gh s) k now stall)); auto.
    apply NoDup_app_notin in Hn. exact Hn.
  - rewrite app_nil_r. destruct (_ || _).
    + apply (add_normal_inv v (set_s_gh (s_gh s + 1)%N s) (mk_msg (s_gh s) k now stall)); auto.
    + split; [exact H|apply subseq_refl].
Qed.

Lemma push_async_inv v s k now : Inv v s -> NoDup (ids (owed v s) ++ pushes v [PushAsync k now]) ->
  Inv v (fst (push_call_async k now s)) /\
  subseq (ids (owed v (fst (push_call_async k now s)))) (ids (owed v s) ++ pushes v [PushAsync k now]).
Proof.
  intros H Hn. unfold push_call_async. pose proof H as (H1 & _). rewrite is_tx_spec, H1.
  cbn [pushes flat_map] in *. rewrite app_nil_r in *.
  destruct (negb (s_running s)); [split; [exact H|apply subseq_appr]|].
  destruct (transactional v (k_type k)) eqn:Ht.
  - apply (add_tx_inv v (set_s_gh (s_gh s + 1)%N s) (mk_msg (s_gh s) k now false)); auto.
    apply NoDup_app_notin in Hn. exact Hn.
  - rewrite app_nil_r. destruct (_ && _).
    + split; [exact H|apply subseq_refl].
    + apply (add_normal_inv v (set_s_gh (s_gh s + 1)%N s) (mk_msg (s_gh s) k now false)); auto.
Qed.

Definition version_kept (v : ver) (o : op) : Prop := match o with Restart c _ => c_ver c = v | _ => True end.

Lemma step_inv v s o :
  Inv v s -> version_kept v o -> NoDup (ids (owed v s) ++ pushes v [o]) ->
  Inv v (fst (step s o)) /\ subseq (ids (owed v (fst (step s o)))) (ids (owed v s) ++ pushes v [o]).
Proof.
  intros H Hv Hn.
  assert (G : Good v s (fst (step s o)) -> pushes v [o] = [] ->
    Inv v (fst (step s o)) /\ subseq (ids (owed v (fst (step s o)))) (ids (owed v s) ++ pushes v [o])).
  { intros [A B] ->. rewrite app_nil_r. auto. }
  assert (Gd : s_dead s = true -> (forall c ig, o <> Restart c ig) ->
    Inv v (fst (step s o)) /\ subseq (ids (owed v (fst (step s o)))) (ids (owed v s) ++ pushes v [o])).
  { intros Hd Hr. assert (E : step s o = (s, [])) by (destruct o; cbn; rewrite ?Hd; auto; exfalso; eapply Hr; reflexivity).
    rewrite E. split; [assumption|apply subseq_appr]. }
  destruct (s_dead s) eqn:Hd.
  { destruct o; try (apply Gd; [reflexivity|discriminate]). apply G; [|reflexivity]. apply restart_good; assumption. }
  destruct o; try (apply G; [|reflexivity]); cbn [step]; rewrite ?Hd.
  - apply push_call_inv; assumption.
  - apply push_async_inv; assumption.
  - unfold push_reply. destruct (negb _); [apply Good_refl; assumption|].
    destruct (s_next s); [destruct (N.eqb _ _)|]; apply Good_same; auto.
  - destruct (work_inv v s now ok H) as [A B]. split; [assumption|].
    rewrite (ids_of_data _ _ B). apply subseq_refl.
  - apply Good_same; auto.
  - unfold recv_result. destruct (s_fl s) as [m|] eqn:Hf; [|apply Good_same; auto].
    destruct (N.eqb _ _); [|apply Good_same; auto].
    eapply (Good_via v s (set_s_next None s)); auto. intros Hi. apply handle_call_result_good; auto.
  - unfold recv_error_begin. destruct (s_fl s) as [m|]; [|apply Good_same; auto].
    destruct (N.eqb _ _); apply Good_same; auto.
  - unfold recv_error_end. destruct (s_errs s) as [|e r]; [apply Good_refl; auto|].
    eapply (Good_via v s (set_s_errs r s)); auto. intros Hi. apply handle_failure_good; auto.
  - unfold recv_error. destruct (s_fl s) as [m|] eqn:Hf; [|apply Good_same; auto].
    destruct (N.eqb _ _); [|apply Good_same; auto].
    eapply (Good_via v s (set_s_next None s)); auto. intros Hi. apply handle_failure_good; auto.
  - unfold timer_expire. destruct (s_armed s) as [d|]; [|apply Good_refl; auto].
    destruct (d <=? now); [apply Good_same; auto|apply Good_refl; auto].
  - unfold timer_run. destruct (s_fired s); [|apply Good_refl; auto].
    eapply (Good_via v s (set_s_fired false s)); auto. intros Hi. apply handle_failure_good; auto.
  - destruct (s_armed s) as [d|]; [|apply Good_refl; auto]. destruct (d <=? now); [|apply Good_refl; auto].
    eapply (Good_via v s (set_s_armed None s)); auto. intros Hi. apply handle_failure_good; auto.
  - destruct (s_nt s) as [t|]; [|apply Good_refl; auto]. destruct (t <=? now); [apply Good_same; auto|apply Good_refl; auto].
  - apply Good_same; auto.
  - cbn [fst]. unfold resume. destruct (negb _); [apply Good_refl; auto|]. destruct (_ && _); [apply Good_same; auto|].
    unfold resume_now. destruct (N.eqb _ _); apply Good_same; auto.
  - cbn [fst]. unfold resume_timer. destruct (existsb _ _); [|apply Good_refl; auto].
    unfold resume_now. destruct (N.eqb _ _); apply Good_same; auto.
  - apply Good_same; auto.
  - apply Good_same; auto.
  - apply Good_same; auto.
  - cbn [fst]. unfold add_meter_id. destruct (lookup _ _); apply Good_same; auto.
  - apply start_handled_good; assumption.
  - split; [exact H|apply subseq_refl].
  - split; [exact H|apply subseq_refl].
  - split; [exact H|apply subseq_refl].
  - apply Good_same; auto.
  - apply restart_good; assumption.
Qed.

Lemma pushes_app v a b : pushes v (a ++ b) = pushes v a ++ pushes v b.
Proof. apply flat_map_app. Qed.

Lemma pushes_cons v o os : pushes v (o :: os) = pushes v [o] ++ pushes v os.
Proof. change (o :: os) with ([o] ++ os). apply pushes_app. Qed.

Lemma NoDup_app_l {A} (a b : list A) : NoDup (a ++ b) -> NoDup a.
Proof. intros H. eapply subseq_nodup; [apply subseq_appr|exact H]. Qed.

Lemma run_inv v os : forall s,
  Inv v s -> same_version v os -> NoDup (ids (owed v s) ++ pushes v os) ->
  Inv v (final s os) /\ subseq (ids (owed v (final s os))) (ids (owed v s) ++ pushes v os).
Proof.
  induction os as [|o os IH]; intros s H Hv Hn.
  - cbn. rewrite app_nil_r. split; [assumption|apply subseq_refl].
  - inversion Hv as [|? ? Hv1 Hv2]; subst. rewrite pushes_cons in Hn. rewrite app_assoc in Hn.
    destruct (step_inv v s o H Hv1 (NoDup_app_l _ _ Hn)) as [A B].
    assert (C : subseq (ids (owed v (fst (step s o))) ++ pushes v os) ((ids (owed v s) ++ pushes v [o]) ++ pushes v os))
      by (apply subseq_app_r; assumption).
    destruct (IH (fst (step s o)) A Hv2 (subseq_nodup _ _ C Hn)) as [D E].
    cbn [final]. split; [assumption|]. rewrite pushes_cons, app_assoc. eapply subseq_trans; eauto.
Qed.

Lemma Inv_fresh c : Inv (c_ver c) (fresh c).
Proof. unfold Inv, fresh, owed. cbn. repeat split; constructor. Qed.

(** ** Emitted CALLs *)

Definition is_send (x : out) : bool := match x with OSend _ _ => true | _ => false end.
Definition quiet (l : list out) : Prop := forallb (fun x => negb (is_send x)) l = true.

Lemma quiet_app a b : quiet a -> quiet b -> quiet (a ++ b).
Proof. unfold quiet. rewrite forallb_app. intros -> ->. reflexivity. Qed.

Lemma check_sizes_quiet s : quiet (snd (check_sizes s)).
Proof.
  unfold check_sizes. destruct (over _ _ _); [|reflexivity].
  destruct (drop_normal _ _ _ _) as [a b]. destruct (drop_tx _ _ _ _ _) as [c d]. cbn [snd].
  unfold quiet. induction (b ++ d); cbn; auto.
Qed.

Lemma handle_failure_quiet e i n s : quiet (snd (handle_failure e i n s)).
Proof.
  unfold handle_failure. destruct (s_fl s); [|reflexivity]. destruct (_ || _).
  - destruct (_ <? _); [destruct (is_start _ _); reflexivity|]. destruct (resolvable _ _); reflexivity.
  - destruct (mtype_eqb _ _); [reflexivity|]. destruct (resolvable _ _); reflexivity.
Qed.

Lemma step_quiet s o : (forall now ok, o <> Work now ok) -> quiet (snd (step s o)).
Proof.
  intros H. destruct o; cbn [step]; try (destruct (s_dead s); [reflexivity|]).
  - unfold push_call. destruct (negb _); [reflexivity|]. destruct (is_tx _ _); [apply check_sizes_quiet|].
    destruct (_ || _); [apply check_sizes_quiet|reflexivity].
  - unfold push_call_async. destruct (negb _); [reflexivity|]. destruct (is_tx _ _); [apply check_sizes_quiet|].
    destruct (_ && _); [reflexivity|apply check_sizes_quiet].
  - unfold push_reply. destruct (negb _); reflexivity.
  - exfalso. eapply H. reflexivity.
  - reflexivity.
  - unfold recv_result. destruct (s_fl s); [|reflexivity]. destruct (N.eqb _ _); [|reflexivity].
    unfold handle_call_result. destruct (resolvable _ _); reflexivity.
  - unfold recv_error_begin. destruct (s_fl s); [|reflexivity]. destruct (N.eqb _ _); reflexivity.
  - unfold recv_error_end. destruct (s_errs s); [reflexivity|apply handle_failure_quiet].
  - unfold recv_error. destruct (s_fl s); [|reflexivity]. destruct (N.eqb _ _); [apply handle_failure_quiet|reflexivity].
  - unfold timer_expire. destruct (s_armed s) as [d|]; [destruct (d <=? now)|]; reflexivity.
  - unfold timer_run. destruct (s_fired s); [apply handle_failure_quiet|reflexivity].
  - destruct (s_armed s) as [d|]; [destruct (d <=? now)|]; try reflexivity. apply handle_failure_quiet.
  - destruct (s_nt s) as [t|]; [destruct (t <=? now)|]; reflexivity.
  - reflexivity.
  - reflexivity.
  - reflexivity.
  - reflexivity.
  - reflexivity.
  - reflexivity.
  - reflexivity.
  - reflexivity.
  - reflexivity.
  - reflexivity.
  - reflexivity.
  - reflexivity.
  - reflexivity.
Qed.

Lemma transmit_outs sel m now ok s :
  exists rest, snd (transmit sel m now ok s) = OSend (prepare m (s_txmap s)) ok :: rest /\ quiet rest /\
               (ok = true -> rest = []).
Proof.
  unfold transmit. destruct ok.
  - exists []. repeat split.
  - destruct (is_tx _ _); [exists []; repeat split; discriminate|].
    destruct (check_queue _ _); [exists []; repeat split; discriminate|].
    destruct sel as [|pre x post|x rest]; [exists []; repeat split; discriminate| |exists []; repeat split; discriminate].
    destruct (resolvable _ _).
    + eexists; split; [reflexivity|]. split; [|discriminate].
      cbn. destruct (pre ++ _); reflexivity.
    + exists [OPromiseErr (m_h (prepare m (s_txmap s)))]; repeat split. discriminate.
Qed.

(** What a wake-up of the worker can emit and when. *)
Lemma work_cases now ok s :
  snd (work now ok s) = [] \/
  exists sel m, s_alive s = true /\ s_paused s = false /\ s_fl s = None /\ held_back s m = false /\
    select s now = sel /\ ((exists pre post, sel = SelNormal pre m post) \/ (exists rest, sel = SelTx m rest)) /\
    snd (work now ok s) = snd (transmit sel m now ok s) /\
    fst (work now ok s) = set_s_alive (s_running (fst (transmit sel m now ok s))) (fst (transmit sel m now ok s)).
Proof.
  unfold work. destruct (s_alive s) eqn:Ea; cbn [negb]; [|left; reflexivity].
  destruct (wake s) eqn:Ew; cbn [negb]; [|left; reflexivity].
  unfold iterate. destruct (no_messages s); [left; reflexivity|].
  destruct (s_paused s) eqn:Ep; [left; reflexivity|].
  destruct (s_fl s) eqn:Ef; [left; reflexivity|].
  destruct (select s now) as [|pre m post|m rest] eqn:Es.
  - left; reflexivity.
  - destruct (held_back s m) eqn:Eh; [left; reflexivity|]. right.
    exists (SelNormal pre m post), m. repeat split; auto; [left; eauto|..];
      destruct (transmit (SelNormal pre m post) m now ok s); reflexivity.
  - destruct (held_back s m) eqn:Eh; [left; reflexivity|]. right.
    exists (SelTx m rest), m. repeat split; auto; [right; eauto|..];
      destruct (transmit (SelTx m rest) m now ok s); reflexivity.
Qed.

Lemma quiet_tx_sends v l : quiet l -> tx_sends v l = [].
Proof.
  unfold quiet. induction l as [|x l IH]; cbn; [reflexivity|]. intros H. apply andb_prop in H as [Hx Hl].
  destruct x; try discriminate; apply IH; assumption.
Qed.
Lemma quiet_sent_ids l : quiet l -> sent_ids l = [].
Proof.
  unfold quiet. induction l as [|x l IH]; cbn; [reflexivity|]. intros H. apply andb_prop in H as [Hx Hl].
  destruct x; try discriminate; apply IH; assumption.
Qed.

Lemma step_tx_sends v s o : Inv v s ->
  tx_sends v (snd (step s o)) = [] \/
  exists a q, tx_sends v (snd (step s o)) = [a] /\ ids (owed v s) = a :: q.
Proof.
  intros H.
  destruct o; try (left; apply quiet_tx_sends, step_quiet; discriminate).
  cbn [step]. destruct (s_dead s); [left; reflexivity|].
  destruct (work_cases now ok s) as [->|(sel & m & Ha & Hp & Hf & Hh & Hs & Hsel & E & _)]; [left; reflexivity|].
  rewrite E. destruct (transmit_outs sel m now ok s) as (rest & -> & Hq & _).
  cbn [tx_sends flat_map]. fold (tx_sends v rest). rewrite (quiet_tx_sends v rest Hq), app_nil_r.
  rewrite prepare_type.
  destruct H as (_ & _ & _ & Hn & _).
  destruct Hsel as [(pre & post & Hsel)|(q & Hsel)]; subst sel.
  - apply select_normal, find_allowed_spec in Hsel as (Hsel & _). rewrite Hsel in Hn.
    apply Forall_app in Hn as [_ Hn]. inversion Hn as [|? ? Hm _]; subst. rewrite Hm. left; reflexivity.
  - rewrite (data_init _ _ (prepare_data m _)). destruct (transactional v (m_type m)); [|left; reflexivity]. right.
    apply select_tx in Hsel as [Hsel _]. rewrite (owed_idle v s Hf). rewrite Hsel.
    exists (m_init m), (ids q). split; reflexivity.
Qed.

(** ** C02 *)
Lemma tx_order_from v os : forall s,
  Inv v s -> same_version v os -> NoDup (ids (owed v s) ++ pushes v os) ->
  let l := tx_sends v (outs (trace s os)) in
  ForallOrdPairs (before (ids (owed v s) ++ pushes v os)) l /\
  Forall (fun a => In a (ids (owed v s) ++ pushes v os)) l.
Proof.
  induction os as [|o os IH]; intros s H Hv Hn; cbn zeta.
  - cbn. split; constructor.
  - inversion Hv as [|? ? Hv1 Hv2]; subst. rewrite pushes_cons in Hn |- *. rewrite app_assoc in Hn |- *.
    destruct (step_inv v s o H Hv1 (NoDup_app_l _ _ Hn)) as [A B].
    assert (C : subseq (ids (owed v (fst (step s o))) ++ pushes v os) ((ids (owed v s) ++ pushes v [o]) ++ pushes v os))
      by (apply subseq_app_r; assumption).
    destruct (IH (fst (step s o)) A Hv2 (subseq_nodup _ _ C Hn)) as [D E].
    set (Q := (ids (owed v s) ++ pushes v [o]) ++ pushes v os) in *.
    assert (D' : ForallOrdPairs (before Q) (tx_sends v (outs (trace (fst (step s o)) os)))).
    { clear E. induction D as [|a l D1 D2 D3]; constructor; [|assumption].
      eapply Forall_impl; [|exact D1]. intros b Hb. eapply before_subseq; eauto. }
    assert (E' : Forall (fun a => In a Q) (tx_sends v (outs (trace (fst (step s o)) os)))).
    { eapply Forall_impl; [|exact E]. intros b Hb. eapply subseq_in; eauto. }
    cbn [trace outs flat_map snd]. fold (outs (trace (fst (step s o)) os)).
    unfold tx_sends at 1 2. rewrite flat_map_app. fold (tx_sends v (snd (step s o))). fold (tx_sends v (outs (trace (fst (step s o)) os))).
    destruct (step_tx_sends v s o H) as [->|(a & q & -> & Ea)]; [split; assumption|].
    assert (HQ : Q = a :: (q ++ pushes v [o] ++ pushes v os)) by (unfold Q; rewrite Ea, <- app_assoc; reflexivity).
    split; cbn [app]; constructor; auto.
    + eapply Forall_impl; [|exact E']. intros b Hb. split; [rewrite HQ; left; reflexivity|]. split; [assumption|].
      rewrite HQ in Hb. destruct Hb as [->|Hb]; [left; reflexivity|]. right. exists [], (q ++ pushes v [o] ++ pushes v os).
      split; [exact HQ|assumption].
    + rewrite HQ. left; reflexivity.
Qed.

Lemma tx_order c os :
  same_version (c_ver c) os -> NoDup (pushes (c_ver c) os) ->
  ForallOrdPairs (before (pushes (c_ver c) os)) (tx_sends (c_ver c) (outs (trace (fresh c) os))).
Proof.
  intros Hv Hn. exact (proj1 (tx_order_from (c_ver c) os (fresh c) (Inv_fresh c) Hv Hn)).
Qed.

(** ** C01 *)
Definition waiting_ok (w : option N) (s : st) : Prop :=
  match w with Some id => exists m, s_fl s = Some m /\ m_id m = id | None => True end.

Lemma sent_ids_work now ok s id :
  sent_ids (snd (work now ok s)) = [id] ->
  s_fl s = None /\ ok = true /\ exists m, s_fl (fst (work now ok s)) = Some m /\ m_id m = id.
Proof.
  destruct (work_cases now ok s) as [->|(sel & m & Ha & Hp & Hf & Hh & Hs & Hsel & E & E2)]; [discriminate|].
  rewrite E, E2. destruct (transmit_outs sel m now ok s) as (rest & Eo & Hq & Hr). rewrite Eo.
  cbn [sent_ids flat_map]. fold (sent_ids rest). rewrite (quiet_sent_ids rest Hq).
  destruct ok; [|discriminate]. intros H; inversion H; subst. split; [assumption|]. split; [reflexivity|].
  exists (prepare m (s_txmap s)). split; [|reflexivity].
  cbn. unfold finish_iteration. destruct (no_messages _); reflexivity.
Qed.

Lemma sent_ids_step s o : sent_ids (snd (step s o)) = [] \/
  exists now id, o = Work now true /\ sent_ids (snd (step s o)) = [id] /\ s_fl s = None /\
             exists m, s_fl (fst (step s o)) = Some m /\ m_id m = id.
Proof.
  destruct o; try (left; apply quiet_sent_ids, step_quiet; discriminate).
  cbn [step]. destruct (s_dead s); [left; reflexivity|].
  destruct (sent_ids (snd (work now ok s))) as [|id l] eqn:E; [left; reflexivity|]. right.
  assert (l = []) as ->.
  { destruct (work_cases now ok s) as [E0|(sel & m & _ & _ & _ & _ & _ & _ & E0 & _)]; rewrite E0 in E; [discriminate|].
    destruct (transmit_outs sel m now ok s) as (rest & Eo & Hq & _). rewrite Eo in E. cbn in E.
    fold (sent_ids rest) in E. rewrite (quiet_sent_ids rest Hq) in E. destruct ok; cbn in E; congruence. }
  destruct (sent_ids_work now ok s id E) as (H1 & -> & H3). exists now, id. auto.
Qed.

(** An operation that does not answer the waiting CALL leaves it in flight (serial schedules). *)
Lemma flight_kept s o m :
  s_fl s = Some m -> answers o (m_id m) = false ->
  (match o with RecvErrEnd _ _ | TimerRun _ _ => False | _ => True end) ->
  s_fl (fst (step s o)) = Some m.
Proof.
  assert (Hcs : forall s, s_fl (fst (check_sizes s)) = s_fl s).
  { intros s0. unfold check_sizes. destruct (over _ _ _); [|reflexivity].
    destruct (drop_normal _ _ _ _), (drop_tx _ _ _ _ _). reflexivity. }
  intros Hf Ha Hs. destruct o; cbn [step answers] in *; try discriminate; try contradiction;
    try (destruct (s_dead s); [assumption|]); try assumption.
  - unfold push_call. destruct (negb _); [assumption|]. destruct (is_tx _ _).
    + unfold add_tx. rewrite Hcs. assumption.
    + destruct (_ || _); [|assumption]. unfold add_normal. rewrite Hcs. assumption.
  - unfold push_call_async. destruct (negb _); [assumption|]. destruct (is_tx _ _).
    + unfold add_tx. rewrite Hcs. assumption.
    + destruct (_ && _); [assumption|]. unfold add_normal. rewrite Hcs. assumption.
  - unfold push_reply. destruct (negb _); [assumption|]. destruct (s_next s); [destruct (N.eqb _ _)|]; assumption.
  - unfold work. destruct (negb _); [assumption|]. destruct (negb _); [assumption|]. unfold iterate.
    destruct (no_messages s); [assumption|]. destruct (s_paused s); [assumption|]. rewrite Hf. assumption.
  - unfold recv_result. rewrite Hf. rewrite N.eqb_sym, Ha. assumption.
  - unfold recv_error_begin. rewrite Hf. rewrite N.eqb_sym, Ha. assumption.
  - unfold recv_error. rewrite Hf. rewrite N.eqb_sym, Ha. assumption.
  - destruct (s_nt s) as [t|]; [destruct (t <=? now)|]; assumption.
  - cbn [fst]. unfold resume. destruct (negb _); [assumption|]. destruct (_ && _); [assumption|].
    unfold resume_now. destruct (N.eqb _ _); assumption.
  - cbn [fst]. unfold resume_timer. destruct (existsb _ _); [|assumption]. unfold resume_now. destruct (N.eqb _ _); assumption.
  - cbn [fst]. unfold add_meter_id. destruct (lookup _ _); assumption.
  - cbn [fst]. unfold start_handled. destruct (lookup _ _); assumption.
Qed.

Lemma one_outstanding_from os : forall s w, serial os -> waiting_ok w s -> one_outstanding w (trace s os).
Proof.
  induction os as [|o os IH]; intros s w Hs Hw; cbn [trace one_outstanding]; [exact I|].
  inversion Hs as [|? ? Hs1 Hs2]; subst.
  set (w1 := match w with Some id => if answers o id then None else w | None => None end).
  assert (Hw1 : waiting_ok w1 (fst (step s o))).
  { unfold w1. destruct w as [id|]; [|exact I]. destruct (answers o id) eqn:Ea; [exact I|].
    destruct Hw as (m & Hf & <-). exists m. split; [|reflexivity]. apply flight_kept; auto.
    destruct o; auto. }
  destruct (sent_ids_step s o) as [->|(now & id & -> & -> & Hf & Hm)]; [apply IH; assumption|].
  split.
  - unfold w1. destruct w as [i|]; [|reflexivity]. destruct Hw as (m & Hf' & _). congruence.
  - apply IH; auto.
Qed.

(** ** C03: accounting *)

Definition has (v : ver) (s : st) (d : N * mtype * bool * N) : Prop := In d (map msg_data (owed v s)).

Definition leaves (v : ver) (s : st) (o : op) (l : list out) (d : N * mtype * bool * N) : Prop :=
  (exists m body, o = RecvResult (m_id m) body /\ s_fl s = Some m /\ transactional v (m_type m) = true /\ msg_data m = d) \/
  (exists m, msg_data m = d /\ In (ODrop m DropAttempts) l) \/
  (exists m, msg_data m = d /\ In (ODrop m DropOverflow) l /\ update_msg v m) \/
  (exists c, o = Restart c true /\ snd (fst (fst d)) = TSecurity).

Lemma check_sizes_acc v s d : c_ver (s_cfg s) = v -> has v s d ->
  has v (fst (check_sizes s)) d \/
  exists m, msg_data m = d /\ In (ODrop m DropOverflow) (snd (check_sizes s)) /\ update_msg v m.
Proof.
  intros Hv H. unfold check_sizes. destruct (over _ _ _); [|left; assumption].
  destruct (drop_normal _ _ _ _) as [nq' dn]. destruct (drop_tx _ _ _ _ _) as [tq' dt] eqn:Et.
  destruct (drop_tx_split _ _ _ _ _ _ _ Et) as (G1 & G2 & G3).
  unfold has, owed in *. cbn [fst snd]. cbn. rewrite map_app in *. apply in_app_or in H as [H|H].
  - left. apply in_or_app. left; assumption.
  - apply in_map_iff in H as (m & Hm & Hin).
    assert (Hin' : In m (tq' ++ dt)) by (eapply Permutation_in; [symmetry; exact G3|assumption]).
    apply in_app_or in Hin' as [Hin'|Hin'].
    + left. apply in_or_app. right. apply in_map_iff. eauto.
    + right. exists m. split; [assumption|]. split.
      * apply in_map_iff. exists m. split; [reflexivity|]. apply in_or_app; right; assumption.
      * rewrite Forall_forall in G2. apply G2 in Hin'. apply is_update_spec. congruence.
Qed.

Lemma add_tx_acc v s m d : c_ver (s_cfg s) = v -> (has v s d \/ d = msg_data m) ->
  has v (fst (add_tx m s)) d \/
  exists m', msg_data m' = d /\ In (ODrop m' DropOverflow) (snd (add_tx m s)) /\ update_msg v m'.
Proof.
  intros Hv H. unfold add_tx. apply check_sizes_acc; [assumption|].
  unfold has, owed in *. cbn. rewrite !map_app in *. cbn.
  destruct H as [H|H].
  - apply in_app_or in H as [H|H]; apply in_or_app; [left; assumption|right; apply in_or_app; left; assumption].
  - subst. apply in_or_app; right. apply in_or_app; right. left; reflexivity.
Qed.

Lemma add_normal_acc v s m d : c_ver (s_cfg s) = v -> has v s d ->
  has v (fst (add_normal m s)) d \/
  exists m', msg_data m' = d /\ In (ODrop m' DropOverflow) (snd (add_normal m s)) /\ update_msg v m'.
Proof. intros Hv H. unfold add_normal. apply check_sizes_acc; assumption. Qed.

Lemma handle_failure_acc v s err newid now d :
  c_ver (s_cfg s) = v -> has v s d ->
  has v (fst (handle_failure err newid now s)) d \/
  exists m, msg_data m = d /\ In (ODrop m DropAttempts) (snd (handle_failure err newid now s)).
Proof.
  intros H1 H. unfold handle_failure. destruct (s_fl s) as [m|] eqn:Hf; [|left; exact H].
  rewrite is_tx_spec, H1. unfold has in *.
  destruct (transactional v (m_type m)) eqn:Ht; cbn [orb].
  - rewrite (owed_in_flight v s m Hf Ht) in H.
    destruct (m_att m <? _).
    + left. rewrite owed_idle by reflexivity. exact H.
    + destruct (resolvable _ _); cbn [fst snd].
      * destruct H as [H|H]; [right; exists m; split; [assumption|right; left; reflexivity]|].
        left. rewrite owed_idle by reflexivity. exact H.
      * left. unfold owed; cbn. rewrite Hf, Ht. exact H.
  - rewrite (owed_in_flight_n v s m Hf Ht) in H. left.
    destruct (check_queue _ _).
    + destruct (m_att m <? _); [rewrite owed_idle by reflexivity; exact H|].
      destruct (resolvable _ _); [rewrite owed_idle by reflexivity; exact H|].
      unfold owed; cbn; rewrite Hf, Ht; exact H.
    + destruct (mtype_eqb _ _); [rewrite owed_idle by reflexivity; exact H|].
      destruct (resolvable _ _); [rewrite owed_idle by reflexivity; exact H|].
      unfold owed; cbn; rewrite Hf, Ht; exact H.
Qed.

Lemma step_acc v s o d : Inv v s -> has v s d -> has v (fst (step s o)) d \/ leaves v s o (snd (step s o)) d.
Proof.
  intros H Hd. pose proof H as (H1 & H2 & _).
  assert (Ga : forall s' l, (has v s' d \/ exists m, msg_data m = d /\ In (ODrop m DropOverflow) l /\ update_msg v m) ->
      has v s' d \/ leaves v s o l d).
  { intros s' l [A|(m & A)]; [left; assumption|right; right; right; left; exists m; exact A]. }
  assert (Gf : forall s' l, (has v s' d \/ exists m, msg_data m = d /\ In (ODrop m DropAttempts) l) ->
      has v s' d \/ leaves v s o l d).
  { intros s' l [A|(m & A)]; [left; assumption|right; right; left; exists m; exact A]. }
  destruct o; cbn [step]; try (destruct (s_dead s); [left; exact Hd|]); try (left; exact Hd).
  - unfold push_call. destruct (negb _); [left; exact Hd|]. destruct (is_tx _ _).
    + apply Ga, add_tx_acc; auto.
    + destruct (_ || _); [|left; exact Hd]. apply Ga, add_normal_acc; auto.
  - unfold push_call_async. destruct (negb _); [left; exact Hd|]. destruct (is_tx _ _).
    + apply Ga, add_tx_acc; auto.
    + destruct (_ && _); [left; exact Hd|]. apply Ga, add_normal_acc; auto.
  - unfold push_reply. destruct (negb _); [left; exact Hd|]. destruct (s_next s); [destruct (N.eqb _ _)|]; left; exact Hd.
  - destruct (work_inv v s now ok H) as [_ B]. left. unfold has. rewrite B. exact Hd.
  - unfold recv_result. destruct (s_fl s) as [m|] eqn:Hf; [|left; exact Hd].
    destruct (N.eqb_spec (m_id m) id) as [E|E]; [|left; exact Hd].
    unfold handle_call_result. rewrite is_tx_spec. cbn [s_cfg set_s_next]. rewrite H1.
    destruct (resolvable _ _); [|left; exact Hd]. cbn [fst].
    destruct (transactional v (m_type m)) eqn:Ht.
    + unfold has in *. rewrite (owed_in_flight v s m Hf Ht) in Hd. destruct Hd as [Hd|Hd].
      * right. left. exists m, body. subst id. auto.
      * left. rewrite owed_idle by reflexivity. exact Hd.
    + left. unfold has in *. rewrite (owed_in_flight_n v s m Hf Ht) in Hd.
      rewrite owed_idle by (destruct (check_queue _ _); reflexivity).
      destruct (check_queue _ _); exact Hd.
  - unfold recv_error_begin. destruct (s_fl s) as [m|] eqn:Hf; [|left; exact Hd].
    destruct (N.eqb _ _); left; unfold has, owed in *; cbn; rewrite Hf in *; exact Hd.
  - unfold recv_error_end. destruct (s_errs s) as [|e r]; [left; exact Hd|].
    apply Gf, handle_failure_acc; auto.
  - unfold recv_error. destruct (s_fl s) as [m|] eqn:Hf; [|left; exact Hd].
    destruct (N.eqb _ _); [|left; exact Hd]. apply Gf, handle_failure_acc; auto.
  - unfold timer_expire. destruct (s_armed s) as [t|]; [destruct (t <=? now)|]; left; exact Hd.
  - unfold timer_run. destruct (s_fired s); [|left; exact Hd]. apply Gf, handle_failure_acc; auto.
  - destruct (s_armed s) as [t|]; [destruct (t <=? now)|]; try (left; exact Hd). apply Gf, handle_failure_acc; auto.
  - destruct (s_nt s) as [t|]; [destruct (t <=? now)|]; left; exact Hd.
  - left. cbn [fst]. unfold resume. destruct (negb _); [exact Hd|]. destruct (_ && _); [exact Hd|].
    unfold resume_now. destruct (N.eqb _ _); exact Hd.
  - left. cbn [fst]. unfold resume_timer. destruct (existsb _ _); [|exact Hd]. unfold resume_now. destruct (N.eqb _ _); exact Hd.
  - left. cbn [fst]. unfold add_meter_id. destruct (lookup _ _); exact Hd.
  - left. cbn [fst]. unfold start_handled. destruct (lookup _ _) as [l|]; [|exact Hd].
    unfold has, owed in *. cbn. rewrite !map_app in *.
    assert (E : map msg_data (map (fun m => if existsb (N.eqb (m_id m)) l then set_tx t m else m) (s_tq s)) = map msg_data (s_tq s)).
    { rewrite map_map. apply map_ext. intros m. destruct (existsb _ l); reflexivity. }
    rewrite E. exact Hd.
  - cbn [fst snd]. set (s0 := init c _ _ _ _).
    destruct (load_persisted_fields ignore_sec s0) as (E1 & E2 & _ & _ & _ & h1 & h2 & E3 & E4 & E5 & E6).
    set (s' := load_persisted ignore_sec s0) in *. clearbody s'. cbn in E1, E2, E4.
    destruct H as (_ & _ & _ & _ & H5 & _).
    unfold has in *. rewrite owed_idle by assumption. rewrite E4, number_rows_data by (apply Forall_filter; assumption).
    rewrite <- H2 in Hd. apply in_map_iff in Hd as (r & Hr & Hin).
    destruct (ignore_sec && mtype_eqb (r_type r) TSecurity) eqn:Ek.
    + apply andb_prop in Ek as [-> Ek]. right. right. right. right. exists c. split; [reflexivity|].
      subst d. cbn. apply mtype_eqb_eq; assumption.
    + left. apply in_map_iff. exists r. split; [assumption|]. apply filter_In. rewrite Ek. auto.
Qed.

Lemma finish_fl s : s_fl (finish_iteration s) = s_fl s.
Proof. unfold finish_iteration. destruct (no_messages s); reflexivity. Qed.

Lemma transmit_flight m now ok s sel x : s_fl s = None -> s_fl (fst (transmit sel x now ok s)) = Some m ->
  In (OSend m true) (snd (transmit sel x now ok s)).
Proof.
  intros E. unfold transmit. destruct ok.
  - cbn [fst snd]. rewrite finish_fl. cbn [s_fl set_s_armed set_s_fl]. intros A. left. congruence.
  - destruct (is_tx _ _); [cbn [fst]; rewrite finish_fl; discriminate|].
    destruct (check_queue _ _); [cbn [fst]; rewrite finish_fl; discriminate|].
    destruct sel; try (cbn [fst]; rewrite finish_fl; discriminate).
    destruct (resolvable _ _); [cbn [fst]; rewrite finish_fl; discriminate|].
    cbn [fst s_fl set_s_dead set_s_paused set_s_txmap]. congruence.
Qed.

(** A message in flight was transmitted in this step or was in flight before. *)
Lemma step_flight s o m : s_fl (fst (step s o)) = Some m -> s_fl s = Some m \/ In (OSend m true) (snd (step s o)).
Proof.
  assert (Hcs : forall s, s_fl (fst (check_sizes s)) = s_fl s).
  { intros s0. unfold check_sizes. destruct (over _ _ _); [|reflexivity].
    destruct (drop_normal _ _ _ _), (drop_tx _ _ _ _ _). reflexivity. }
  assert (Hhf : forall e i n s, s_fl (fst (handle_failure e i n s)) = Some m -> s_fl s = Some m).
  { intros e i n s0. unfold handle_failure. destruct (s_fl s0) eqn:E; [|cbn; congruence].
    destruct (_ || _).
    - destruct (_ <? _); [cbn; discriminate|]. destruct (resolvable _ _); cbn; [discriminate|congruence].
    - destruct (mtype_eqb _ _); [cbn; discriminate|]. destruct (resolvable _ _); cbn; [discriminate|congruence]. }
  destruct o; cbn [step]; try (destruct (s_dead s); [left; assumption|]); try (left; assumption); intros Hf.
  - left. unfold push_call in Hf. destruct (negb _); [assumption|]. destruct (is_tx _ _).
    + unfold add_tx in Hf. rewrite Hcs in Hf. assumption.
    + destruct (_ || _); [|assumption]. unfold add_normal in Hf. rewrite Hcs in Hf. assumption.
  - left. unfold push_call_async in Hf. destruct (negb _); [assumption|]. destruct (is_tx _ _).
    + unfold add_tx in Hf. rewrite Hcs in Hf. assumption.
    + destruct (_ && _); [assumption|]. unfold add_normal in Hf. rewrite Hcs in Hf. assumption.
  - left. unfold push_reply in Hf. destruct (negb _); [assumption|]. destruct (s_next s); [destruct (N.eqb _ _)|]; assumption.
  - unfold work in *. destruct (negb _); [left; assumption|]. destruct (negb _); [left; assumption|].
    unfold iterate in *. destruct (no_messages s); [left; assumption|]. destruct (s_paused s); [left; assumption|].
    destruct (s_fl s) eqn:E; [left; cbn in Hf; congruence|].
    assert (T : forall sel x, s_fl (fst (transmit sel x now ok s)) = Some m -> In (OSend m true) (snd (transmit sel x now ok s)))
      by (intros sel x; apply transmit_flight; assumption).
    right. destruct (select s now) as [|pre x post|x rest].
    + cbn in Hf. congruence.
    + destruct (held_back s x); [cbn in Hf; congruence|].
      specialize (T (SelNormal pre x post) x). destruct (transmit (SelNormal pre x post) x now ok s). apply T. exact Hf.
    + destruct (held_back s x); [cbn in Hf; congruence|].
      specialize (T (SelTx x rest) x). destruct (transmit (SelTx x rest) x now ok s). apply T. exact Hf.
  - left. unfold recv_result in Hf. destruct (s_fl s) eqn:E; [|cbn in Hf; congruence].
    destruct (N.eqb _ _); [|cbn in Hf; congruence]. unfold handle_call_result in Hf.
    destruct (resolvable _ _); [discriminate|]. cbn in Hf. congruence.
  - left. unfold recv_error_begin in Hf. destruct (s_fl s) eqn:E; [|cbn in Hf; congruence].
    destruct (N.eqb _ _); cbn in Hf; congruence.
  - left. unfold recv_error_end in Hf. destruct (s_errs s); [assumption|]. apply Hhf in Hf. exact Hf.
  - left. unfold recv_error in Hf. destruct (s_fl s) eqn:E; [|cbn in Hf; congruence].
    destruct (N.eqb _ _); [|cbn in Hf; congruence]. apply Hhf in Hf. cbn in Hf. congruence.
  - left. unfold timer_expire in Hf. destruct (s_armed s) as [t|]; [destruct (t <=? now)|]; assumption.
  - left. unfold timer_run in Hf. destruct (s_fired s); [|assumption]. apply Hhf in Hf. exact Hf.
  - left. destruct (s_armed s) as [t|]; [destruct (t <=? now)|]; try assumption. apply Hhf in Hf. exact Hf.
  - left. destruct (s_nt s) as [t|]; [destruct (t <=? now)|]; assumption.
  - left. cbn [fst] in Hf. unfold resume in Hf. destruct (negb _); [assumption|]. destruct (_ && _); [assumption|].
    unfold resume_now in Hf. destruct (N.eqb _ _); assumption.
  - left. cbn [fst] in Hf. unfold resume_timer in Hf. destruct (existsb _ _); [|assumption]. unfold resume_now in Hf. destruct (N.eqb _ _); assumption.
  - left. cbn [fst] in Hf. unfold add_meter_id in Hf. destruct (lookup _ _); assumption.
  - left. cbn [fst] in Hf. unfold start_handled in Hf. destruct (lookup _ _); assumption.
  - exfalso. cbn [fst] in Hf. match type of Hf with s_fl (load_persisted ?a ?b) = _ => destruct (load_persisted_fields a b) as (_ & E & _) end.
    rewrite E in Hf. discriminate.
Qed.

(** How message [d] is accounted for, given the trace [t] since it was pushed. *)
Definition accounted (v : ver) (d : N * mtype * bool * N) (t : list (op * list out)) (s : st) : Prop :=
  let id := fst (fst (fst d)) in
  has v s d \/ answered id t \/ given_up v id t \/ (snd (fst (fst d)) = TSecurity /\ security_forgotten t).

Definition flight_known (v : ver) (d : N * mtype * bool * N) (t : list (op * list out)) (s : st) : Prop :=
  forall m, s_fl s = Some m -> transactional v (m_type m) = true -> msg_data m = d -> In (OSend m true) (outs t).

Lemma answered_app id t t' : answered id t -> answered id (t ++ t').
Proof.
  intros (m & b & t1 & l & t2 & -> & H2 & H3). exists m, b, t1, l, (t2 ++ t'). rewrite <- app_assoc. auto.
Qed.
Lemma given_up_app v id t t' : given_up v id t -> given_up v id (t ++ t').
Proof.
  intros (m & H1 & H2). exists m. split; [assumption|]. rewrite outs_app.
  destruct H2 as [H2|[H2 H3]]; [left|right; split; [|assumption]]; apply in_or_app; left; assumption.
Qed.
Lemma security_app t t' : security_forgotten t -> security_forgotten (t ++ t').
Proof. intros (c & l & H). exists c, l. apply in_or_app; left; assumption. Qed.

Lemma accounted_step v d t s o :
  Inv v s -> accounted v d t s -> flight_known v d t s ->
  accounted v d (t ++ [(o, snd (step s o))]) (fst (step s o)) /\
  flight_known v d (t ++ [(o, snd (step s o))]) (fst (step s o)).
Proof.
  intros H Ha Hf. split.
  - destruct Ha as [Ha|[Ha|[Ha|[Ha Hb]]]].
    + destruct (step_acc v s o d H Ha) as [B|[B|[B|[B|B]]]].
      * left; assumption.
      * destruct B as (m & body & -> & E1 & E2 & E3). right; left.
        exists m, body, t, (snd (step s (RecvResult (m_id m) body))), []. split; [reflexivity|].
        split; [subst d; reflexivity|]. apply Hf; assumption.
      * destruct B as (m & B1 & B2). right; right; left. exists m. split; [subst d; reflexivity|]. left.
        rewrite outs_app. apply in_or_app; right. cbn. rewrite app_nil_r. assumption.
      * destruct B as (m & B1 & B2 & B3). right; right; left. exists m. split; [subst d; reflexivity|]. right.
        split; [|assumption]. rewrite outs_app. apply in_or_app; right. cbn. rewrite app_nil_r. assumption.
      * destruct B as (c & -> & B). right; right; right. split; [assumption|]. exists c, (snd (step s (Restart c true))).
        apply in_or_app; right; left; reflexivity.
    + right; left. apply answered_app; assumption.
    + right; right; left. apply given_up_app; assumption.
    + right; right; right. split; [assumption|apply security_app; assumption].
  - intros m Em Ht Hd. rewrite outs_app. apply in_or_app. cbn. rewrite app_nil_r.
    destruct (step_flight s o m Em) as [E|E]; [left; apply Hf; assumption|right; assumption].
Qed.

Lemma accounted_run v d os : forall t s,
  Inv v s -> same_version v os -> NoDup (ids (owed v s) ++ pushes v os) ->
  accounted v d t s -> flight_known v d t s ->
  accounted v d (t ++ trace s os) (final s os).
Proof.
  induction os as [|o os IH]; intros t s H Hv Hn Ha Hf.
  - cbn. rewrite app_nil_r. assumption.
  - inversion Hv as [|? ? Hv1 Hv2]; subst. rewrite pushes_cons in Hn. rewrite app_assoc in Hn.
    destruct (step_inv v s o H Hv1 (NoDup_app_l _ _ Hn)) as [A B].
    assert (C : subseq (ids (owed v (fst (step s o))) ++ pushes v os) ((ids (owed v s) ++ pushes v [o]) ++ pushes v os))
      by (apply subseq_app_r; assumption).
    destruct (accounted_step v d t s o H Ha Hf) as [D E].
    cbn [trace final]. change ((o, snd (step s o)) :: trace (fst (step s o)) os) with ([(o, snd (step s o))] ++ trace (fst (step s o)) os).
    rewrite app_assoc. apply IH; auto. eapply subseq_nodup; eauto.
Qed.

Lemma tx_not_lost c os1 p k os2 :
  let v := c_ver c in
  let s := final (fresh c) os1 in
  pushed_call p = Some k -> transactional v (k_type k) = true ->
  s_running s = true -> s_dead s = false ->
  same_version v (os1 ++ p :: os2) -> NoDup (pushes v (os1 ++ p :: os2)) ->
  let t := trace s (p :: os2) in
  let s' := final s (p :: os2) in
  In (k_id k) (map m_init (owed v s')) \/ answered (k_id k) t \/ given_up v (k_id k) t \/
  (k_type k = TSecurity /\ security_forgotten t).
Proof.
  cbn zeta. intros Hp Ht Hr Hd Hv Hn. set (v := c_ver c) in *. set (s := final (fresh c) os1) in *.
  unfold same_version in Hv. apply Forall_app in Hv as [Hv1 Hv2].
  rewrite pushes_app in Hn.
  destruct (run_inv v os1 (fresh c) (Inv_fresh c) Hv1) as [A B]; [apply NoDup_app_l in Hn; exact Hn|].
  fold s in A, B. cbn [app owed fresh init] in B.
  assert (Hn2 : NoDup (ids (owed v s) ++ pushes v (p :: os2))).
  { eapply subseq_nodup; [apply subseq_app_r; exact B|]. exact Hn. }
  set (d := (k_id k, k_type k, k_upd k, k_body k)).
  inversion Hv2 as [|? ? Hv21 Hv22]; subst.
  assert (Hn3 : NoDup ((ids (owed v s) ++ pushes v [p]) ++ pushes v os2)).
  { rewrite <- app_assoc, <- pushes_cons. assumption. }
  destruct (step_inv v s p A Hv21 (NoDup_app_l _ _ Hn3)) as [C D].
  assert (E : subseq (ids (owed v (fst (step s p))) ++ pushes v os2) ((ids (owed v s) ++ pushes v [p]) ++ pushes v os2))
    by (apply subseq_app_r; assumption).
  assert (Hfresh : ~ In (k_id k) (ids (owed v s))).
  { apply NoDup_app_notin. apply NoDup_app_l in Hn3.
    replace [k_id k] with (pushes v [p]); [exact Hn3|].
    destruct p; cbn in Hp |- *; try discriminate; inversion Hp; subst; rewrite Ht; reflexivity. }
  assert (Ha : accounted v d ([(p, snd (step s p))]) (fst (step s p))).
  { pose proof A as (A1 & _).
    assert (G : forall h now st, (has v (fst (add_tx (mk_msg h k now st) (set_s_gh (h + 1)%N s))) d \/
      exists m', msg_data m' = d /\ In (ODrop m' DropOverflow) (snd (add_tx (mk_msg h k now st) (set_s_gh (h + 1)%N s))) /\ update_msg v m')).
    { intros. apply add_tx_acc; [exact A1|]. right; reflexivity. }
    destruct p; cbn in Hp; try discriminate; inversion Hp; subst; cbn [step]; rewrite Hd;
      [unfold push_call|unfold push_call_async]; rewrite Hr, is_tx_spec, A1, Ht; cbn [negb];
      (match goal with |- context [add_tx (mk_msg ?h k ?n ?b) _] => destruct (G h n b) as [G'|(m & G1 & G2 & G3)] end;
       [left; exact G'|right; right; left; exists m; split; [change (k_id k) with (fst (fst (fst d))); rewrite <- G1; reflexivity|
         right; split; [cbn; rewrite app_nil_r; exact G2|exact G3]]]). }
  assert (Hk : flight_known v d [(p, snd (step s p))] (fst (step s p))).
  { intros m Em Htm Hdm. destruct (step_flight s p m Em) as [F|F].
    - exfalso. apply Hfresh. rewrite (owed_in_flight v s m F Htm). left.
      change (k_id k) with (fst (fst (fst d))). rewrite <- Hdm. reflexivity.
    - cbn. rewrite app_nil_r. assumption. }
  pose proof (accounted_run v d os2 _ _ C Hv22 (subseq_nodup _ _ E Hn3) Ha Hk) as R.
  cbn [trace final]. cbn [app] in R. unfold accounted in R. cbn in R.
  destruct R as [R|R]; [left|right; exact R].
  unfold has in R. apply in_map_iff in R as (m & R1 & R2). apply in_map_iff. exists m. split; [|assumption].
  unfold msg_data, d in R1. congruence.
Qed.
