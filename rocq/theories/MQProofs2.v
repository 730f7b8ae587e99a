(** Proofs about the message queue, second part: retries, queue size, pause, promises. *)
From Coq Require Import List ZArith NArith Bool Lia Permutation.
From Verif Require Import MQModel MQSpec MQProofs.
Import ListNotations.
Open Scope Z_scope.

(** ** One step seen through the objects that the queues hold *)

(** The part of a message that only the queue's own bookkeeping changes through [m_att]. *)
Definition core (m : msg) : msg :=
  Msg (m_h m) (m_type m) 0 (m_init m) (m_att m) 0 (m_stall m) (m_upd m) None false (m_body m).
Definition bump (m : msg) : msg :=
  Msg (m_h m) (m_type m) (m_id m) (m_init m) (m_att m + 1) (m_ts m) (m_stall m) (m_upd m) (m_tx m) (m_off m) (m_body m).
Definition held (s : st) : list msg := map core (s_nq s ++ s_tq s).
Definition pushed (s : st) (o : op) : list msg :=
  match o with
  | Push k now stall => [core (mk_msg (s_gh s) k now stall)]
  | PushAsync k now => [core (mk_msg (s_gh s) k now false)]
  | _ => []
  end.
Definition sub {A} (a b : list A) : Prop := exists r, Permutation (a ++ r) b.

Lemma sub_refl {A} (a : list A) : sub a a.
Proof. exists []. rewrite app_nil_r. apply Permutation_refl. Qed.
Lemma sub_perm {A} (a b : list A) : Permutation a b -> sub a b.
Proof. intros H. exists []. rewrite app_nil_r. assumption. Qed.
Lemma sub_app {A} (a b : list A) : sub a (a ++ b).
Proof. exists b. apply Permutation_refl. Qed.
Lemma sub_trans {A} (a b c : list A) : sub a b -> sub b c -> sub a c.
Proof.
  intros [r H] [r' H']. exists (r ++ r'). rewrite app_assoc. rewrite H. assumption.
Qed.
Lemma sub_in {A} (a b : list A) x : sub a b -> In x a -> In x b.
Proof. intros [r H] Hx. eapply Permutation_in; [exact H|]. apply in_or_app; left; assumption. Qed.
Lemma sub_forall {A} (P : A -> Prop) a b : sub a b -> Forall P b -> Forall P a.
Proof. rewrite !Forall_forall. intros H H' x Hx. apply H'. eapply sub_in; eauto. Qed.

Inductive vstep (s : st) (o : op) (s' : st) (l : list out) : Prop :=
| v_dead : s_dead s' = true -> vstep s o s' l
| v_stay : quiet l -> s_fl s' = s_fl s -> sub (held s') (held s ++ pushed s o) -> vstep s o s' l
| v_sent x y rest now : o = Work now true -> s_fl s = None -> Permutation (held s) (core x :: rest) ->
    s_fl s' = Some y -> core y = bump (core x) -> Permutation (held s') rest -> l = [OSend y true] -> vstep s o s' l
| v_fail x y rest now l' : o = Work now false -> s_fl s = None -> Permutation (held s) (core x :: rest) ->
    s_fl s' = None -> core y = bump (core x) -> sub (held s') (core y :: rest) -> l = OSend y false :: l' -> quiet l' ->
    vstep s o s' l
| v_done m : s_fl s = Some m -> s_fl s' = None -> held s' = held s -> quiet l -> vstep s o s' l
| v_requeue m : s_fl s = Some m -> s_fl s' = None -> Permutation (held s') (core m :: held s) -> quiet l ->
    (m_type m = TBoot \/ m_att m < c_attempts (s_cfg s)) -> vstep s o s' l.

Lemma check_sizes_held s : sub (held (fst (check_sizes s))) (held s) /\ s_fl (fst (check_sizes s)) = s_fl s.
Proof.
  unfold check_sizes. destruct (over _ _ _); [|split; [apply sub_refl|reflexivity]].
  destruct (drop_normal _ _ _ _) as [nq' dn] eqn:En. destruct (drop_tx _ _ _ _ _) as [tq' dt] eqn:Et.
  split; [|reflexivity].
  apply drop_normal_spec in En as [En _]; [|lia].
  apply drop_tx_split in Et as (_ & _ & Et).
  exists (map core (dn ++ dt)). unfold held. cbn. rewrite <- map_app. apply Permutation_map.
  rewrite En, <- Et. rewrite <- !app_assoc. rewrite (Permutation_app_comm nq').
  rewrite <- !app_assoc. rewrite (Permutation_app_comm tq'). rewrite <- !app_assoc. apply Permutation_app_head.
  rewrite (Permutation_app_comm dt). rewrite <- !app_assoc. apply Permutation_app_head. apply Permutation_refl.
Qed.

Lemma prepare_core m l : core (prepare m l) = bump (core m).
Proof. unfold prepare. destruct (lookup _ _); reflexivity. Qed.
Lemma mark_offline_core m : core (mark_offline m) = core m.
Proof. unfold mark_offline, core. destruct (m_type m) eqn:E; cbn; rewrite ?E; reflexivity. Qed.
Lemma finish_held s : held (finish_iteration s) = held s.
Proof. unfold finish_iteration. destruct (no_messages s); reflexivity. Qed.

Lemma held_sel s now x pre post : select s now = SelNormal pre x post ->
  Permutation (held s) (core x :: map core (pre ++ post) ++ map core (s_tq s)).
Proof.
  intros Es. apply select_normal in Es. apply find_allowed_spec in Es as (E & _). unfold held. rewrite E.
  rewrite !map_app. cbn. rewrite <- app_assoc. cbn. rewrite <- Permutation_middle. rewrite app_assoc. apply Permutation_refl.
Qed.
Lemma held_sel_tx s now x rest : select s now = SelTx x rest ->
  Permutation (held s) (core x :: map core (s_nq s) ++ map core rest).
Proof.
  intros Es. apply select_tx in Es as (E & _). unfold held. rewrite E.
  rewrite map_app. cbn. rewrite <- Permutation_middle. apply Permutation_refl.
Qed.

Lemma work_vstep s now ok : vstep s (Work now ok) (fst (work now ok s)) (snd (work now ok s)).
Proof.
  destruct (work_cases now ok s) as [E|(sel & x & H1 & H2 & H3 & H4 & H5 & H6 & H7 & H8)].
  - apply v_stay; [rewrite E; reflexivity| |].
    + unfold work in *. destruct (negb _); [reflexivity|]. destruct (negb _); [reflexivity|].
      destruct (s_fl s) as [m|] eqn:Ef; unfold iterate in *; destruct (no_messages s); try (cbn; congruence);
      destruct (s_paused s); try (cbn; congruence); rewrite Ef in *; [cbn; congruence|].
      destruct (select s now) as [|pre x post|x rest]; [cbn; congruence| |];
        (destruct (held_back s x); [cbn; congruence|]);
        [pose proof (transmit_outs (SelNormal pre x post) x now ok s) as (r & A & _)|
         pose proof (transmit_outs (SelTx x rest) x now ok s) as (r & A & _)];
        destruct (transmit _ x now ok s); cbn in *; congruence.
    + unfold work in *. destruct (negb _); [apply sub_app|]. destruct (negb _); [apply sub_app|].
      unfold iterate in *; destruct (no_messages s); [apply sub_app|]; destruct (s_paused s); [apply sub_app|].
      destruct (s_fl s); [apply sub_app|].
      destruct (select s now) as [|pre x post|x rest]; [apply sub_app| |];
        (destruct (held_back s x); [apply sub_app|]);
        [pose proof (transmit_outs (SelNormal pre x post) x now ok s) as (r & A & _)|
         pose proof (transmit_outs (SelTx x rest) x now ok s) as (r & A & _)];
        destruct (transmit _ x now ok s); cbn in *; congruence.
  - rewrite H7, H8. clear H7 H8.
    assert (Hal : forall b z, s_fl (set_s_alive b z) = s_fl z /\ held (set_s_alive b z) = held z) by (intros; split; reflexivity).
    unfold transmit. set (y := prepare x (s_txmap s)).
    assert (Hy : core y = bump (core x)) by apply prepare_core.
    destruct H6 as [(pre & post & ->)|(rest & ->)].
    + pose proof (held_sel _ _ _ _ _ H5) as Hh.
      destruct ok.
      * eapply (v_sent _ _ _ _ x y (map core (pre ++ post) ++ map core (s_tq s))); try reflexivity; try eassumption.
        -- cbn [fst]. rewrite (proj1 (Hal _ _)), finish_fl. reflexivity.
        -- cbn [fst]. rewrite (proj2 (Hal _ _)), finish_held. unfold held. cbn. rewrite !map_app. apply Permutation_refl.
      * assert (K : sub (map core (pre ++ y :: post) ++ map core (s_tq s)) (core y :: map core (pre ++ post) ++ map core (s_tq s))).
        { apply sub_perm. rewrite !map_app. cbn. rewrite <- app_assoc. cbn. rewrite <- Permutation_middle.
          rewrite app_assoc. apply Permutation_refl. }
        destruct (is_tx _ _).
        -- eapply (v_fail _ _ _ _ x y (map core (pre ++ post) ++ map core (s_tq s))); try reflexivity; try eassumption.
           ++ cbn [fst]. rewrite (proj1 (Hal _ _)), finish_fl. reflexivity.
           ++ cbn [fst]. rewrite (proj2 (Hal _ _)), finish_held. unfold held. cbn. rewrite !map_app. cbn.
              rewrite mark_offline_core. rewrite <- map_app. rewrite !map_app in K. rewrite map_app. exact K.
        -- destruct (check_queue _ _).
           ++ eapply (v_fail _ _ _ _ x y (map core (pre ++ post) ++ map core (s_tq s))); try reflexivity; try eassumption.
              ** cbn [fst]. rewrite (proj1 (Hal _ _)), finish_fl. reflexivity.
              ** cbn [fst]. rewrite (proj2 (Hal _ _)), finish_held. unfold held. cbn. rewrite map_app. exact K.
           ++ destruct (resolvable _ _); [|apply v_dead; reflexivity].
              eapply (v_fail _ _ _ _ x y (map core (pre ++ post) ++ map core (s_tq s))); try reflexivity; try eassumption.
              ** cbn [fst]. rewrite (proj1 (Hal _ _)), finish_fl. reflexivity.
              ** cbn [fst]. rewrite (proj2 (Hal _ _)), finish_held. unfold held. cbn.
                 eapply sub_trans; [|exact K]. rewrite map_app.
                 destruct pre as [|p pre]; cbn; [exists [core y]|exists [core p]];
                 rewrite Permutation_app_comm; apply Permutation_refl.
              ** cbn. destruct pre; reflexivity.
    + pose proof (held_sel_tx _ _ _ _ H5) as Hh.
      destruct ok.
      * eapply (v_sent _ _ _ _ x y (map core (s_nq s) ++ map core rest)); try reflexivity; try eassumption.
        -- cbn [fst]. rewrite (proj1 (Hal _ _)), finish_fl. reflexivity.
        -- cbn [fst]. rewrite (proj2 (Hal _ _)), finish_held. unfold held. cbn. rewrite !map_app. apply Permutation_refl.
      * assert (K : forall z, core z = core y -> sub (map core (s_nq s ++ z :: rest)) (core y :: map core (s_nq s) ++ map core rest)).
        { intros z Hz. apply sub_perm. rewrite !map_app. cbn. rewrite Hz. rewrite <- Permutation_middle. apply Permutation_refl. }
        destruct (is_tx _ _); [|destruct (check_queue _ _)];
        (eapply (v_fail _ _ _ _ x y (map core (s_nq s) ++ map core rest)); try reflexivity; try eassumption;
           cbn [fst]; rewrite (proj2 (Hal _ _)), finish_held; unfold held; cbn; apply K; try reflexivity; apply mark_offline_core).
Qed.

Lemma handle_failure_vstep e i n s0 s o :
  s_fl s0 = s_fl s -> held s0 = held s -> s_cfg s0 = s_cfg s ->
  vstep s o (fst (handle_failure e i n s0)) (snd (handle_failure e i n s0)).
Proof.
  intros Hf Hh Hc. pose proof (handle_failure_quiet e i n s0) as Hq.
  unfold handle_failure in *. rewrite Hf in *. destruct (s_fl s) as [m|] eqn:Ef; [|apply v_dead; reflexivity].
  assert (R : forall z t a, z = set_s_tq (requeued m i a :: s_tq s0) s0 \/ z = set_s_nq (requeued m i a :: s_nq s0) s0 ->
     Permutation (held (reset_in_flight (set_s_nt t z))) (core m :: held s)).
  { intros z t a [-> | ->]; rewrite <- Hh; unfold held; cbn.
    - rewrite !map_app. cbn. rewrite <- Permutation_middle. apply Permutation_refl.
    - apply Permutation_refl. }
  destruct (is_tx _ _ || _) eqn:Eq.
  - destruct (m_att m <? _) eqn:Ea.
    + eapply v_requeue; [exact Ef|reflexivity| |exact Hq|right; rewrite <- Hc; lia].
      cbn [fst]. eapply R. destruct (is_tx _ _); [left|right]; reflexivity.
    + destruct (resolvable _ _); [|apply v_dead; reflexivity].
      eapply v_done; [exact Ef|reflexivity| |exact Hq]. rewrite <- Hh. destruct (is_tx _ _); reflexivity.
  - destruct (mtype_eqb _ _) eqn:Eb.
    + eapply v_requeue; [exact Ef|reflexivity| |exact Hq|left; apply mtype_eqb_eq; assumption].
      cbn [fst]. eapply R. right; reflexivity.
    + destruct (resolvable _ _); [|apply v_dead; reflexivity].
      eapply v_done; [exact Ef|reflexivity| |exact Hq]. rewrite <- Hh. reflexivity.
Qed.

Lemma step_vstep s o : (forall c i, o <> Restart c i) -> vstep s o (fst (step s o)) (snd (step s o)).
Proof.
  intros Hr.
  assert (S0 : forall s', quiet (snd (step s o)) -> s_fl s' = s_fl s -> held s' = held s -> vstep s o s' (snd (step s o))).
  { intros s' Hq H1 H2. apply v_stay; [assumption|assumption|rewrite H2; apply sub_app]. }
  destruct (s_dead s) eqn:Ed.
  { destruct o; try (apply v_dead; cbn [step]; rewrite Ed; assumption); exfalso; eapply Hr; reflexivity. }
  assert (Hq : (forall now ok, o <> Work now ok) -> quiet (snd (step s o))) by apply step_quiet.
  assert (Ht : forall m z, s_fl z = s_fl s -> Permutation (held z) (held s ++ [core m]) ->
    s_fl (fst (check_sizes z)) = s_fl s /\ sub (held (fst (check_sizes z))) (held s ++ [core m])).
  { intros m z H1 H2. destruct (check_sizes_held z) as [A B]. split; [congruence|].
    eapply sub_trans; [exact A|]. apply sub_perm. exact H2. }
  assert (Htx : forall m z, s_fl z = s_fl s -> held z = held s -> s_fl (fst (add_tx m z)) = s_fl s /\
     sub (held (fst (add_tx m z))) (held s ++ [core m])).
  { intros m z H1 H2. apply Ht; [exact H1|]. rewrite <- H2. unfold held. cbn. rewrite !map_app. cbn.
    rewrite app_assoc. apply Permutation_refl. }
  assert (Hnm : forall m z, s_fl z = s_fl s -> held z = held s -> s_fl (fst (add_normal m z)) = s_fl s /\
     sub (held (fst (add_normal m z))) (held s ++ [core m])).
  { intros m z H1 H2. apply Ht; [exact H1|]. rewrite <- H2. unfold held. cbn.
    destruct (m_type m); cbn; rewrite ?map_app; cbn; rewrite <- ?app_assoc; cbn;
      try (rewrite <- Permutation_middle; rewrite app_assoc; apply Permutation_cons_append);
      rewrite app_assoc; apply Permutation_cons_append. }
  destruct o; try (exfalso; eapply Hr; reflexivity);
    try (apply S0; [apply Hq; discriminate|cbn [step]; rewrite Ed; reflexivity|cbn [step]; rewrite Ed; reflexivity]).
  - apply v_stay; [apply Hq; discriminate| |]; cbn [step pushed]; rewrite Ed; unfold push_call;
      (destruct (negb _); [try apply sub_app; reflexivity|]); destruct (is_tx _ _);
      try (apply Htx; reflexivity); (destruct (_ || _); [apply Hnm; reflexivity|try apply sub_app; reflexivity]).
  - apply v_stay; [apply Hq; discriminate| |]; cbn [step pushed]; rewrite Ed; unfold push_call_async;
      (destruct (negb _); [try apply sub_app; reflexivity|]); destruct (is_tx _ _);
      try (apply Htx; reflexivity); (destruct (_ && _); [try apply sub_app; reflexivity|apply Hnm; reflexivity]).
  - apply S0; [apply Hq; discriminate| |]; cbn [step]; rewrite Ed; unfold push_reply; (destruct (negb _); [reflexivity|]);
      (destruct (s_next s); [destruct (N.eqb _ _)|]); reflexivity.
  - cbn [step]. rewrite Ed. apply work_vstep.
  - pose proof (Hq ltac:(discriminate)) as Q. cbn [step] in *. rewrite Ed in *. unfold recv_result in *.
    destruct (s_fl s) as [m|] eqn:Ef; [|apply S0; auto].
    destruct (N.eqb _ _); [|apply S0; auto].
    unfold handle_call_result in *. destruct (resolvable _ _); [|apply S0; auto].
    eapply v_done; [exact Ef|reflexivity| |exact Q]. cbn. destruct (is_tx _ _); [|destruct (check_queue _ _)]; reflexivity.
  - apply S0; [apply Hq; discriminate| |]; cbn [step]; rewrite Ed; unfold recv_error_begin;
    destruct (s_fl s) eqn:Ef; try (destruct (N.eqb _ _)); try reflexivity; cbn; congruence.
  - pose proof (Hq ltac:(discriminate)) as Q. cbn [step] in *. rewrite Ed in *. unfold recv_error_end in *.
    destruct (s_errs s); [apply S0; auto|]. apply handle_failure_vstep; reflexivity.
  - pose proof (Hq ltac:(discriminate)) as Q. cbn [step] in *. rewrite Ed in *. unfold recv_error in *.
    destruct (s_fl s) as [m|] eqn:Ef; [|apply S0; auto].
    destruct (N.eqb _ _); [|apply S0; auto]. apply handle_failure_vstep; [cbn; congruence|reflexivity|reflexivity].
  - apply S0; [apply Hq; discriminate| |]; cbn [step]; rewrite Ed; unfold timer_expire;
    (destruct (s_armed s) as [t|]; [destruct (t <=? now)|]); reflexivity.
  - pose proof (Hq ltac:(discriminate)) as Q. cbn [step] in *. rewrite Ed in *. unfold timer_run in *.
    destruct (s_fired s); [|apply S0; auto]. apply handle_failure_vstep; reflexivity.
  - pose proof (Hq ltac:(discriminate)) as Q. cbn [step] in *. rewrite Ed in *.
    destruct (s_armed s) as [t|]; [destruct (t <=? now)|]; try (apply S0; auto; fail). apply handle_failure_vstep; reflexivity.
  - apply S0; [apply Hq; discriminate| |]; cbn [step]; rewrite Ed;
    (destruct (s_nt s) as [t|]; [destruct (t <=? now)|]); reflexivity.
  - apply S0; [apply Hq; discriminate| |]; cbn [step]; rewrite Ed; cbn [fst]; unfold resume; (destruct (negb _); [reflexivity|]);
    (destruct (_ && _); [reflexivity|]); unfold resume_now; destruct (N.eqb _ _); reflexivity.
  - apply S0; [apply Hq; discriminate| |]; cbn [step]; rewrite Ed; cbn [fst]; unfold resume_timer; (destruct (existsb _ _); [|reflexivity]);
    unfold resume_now; destruct (N.eqb _ _); reflexivity.
  - apply S0; [apply Hq; discriminate| |]; cbn [step]; rewrite Ed; cbn [fst]; unfold add_meter_id; destruct (lookup _ _); reflexivity.
  - apply S0; [apply Hq; discriminate| |]; cbn [step]; rewrite Ed; cbn [fst]; unfold start_handled; destruct (lookup _ _); try reflexivity.
    unfold held. cbn. rewrite !map_app. f_equal. rewrite map_map. apply map_ext. intros m. destruct (existsb _ l); reflexivity.
Qed.

(** ** C05: bounded retries *)

Definition mine (x : N) (l : list msg) : list msg := filter (fun m => N.eqb (m_init m) x) l.
Definition flc (s : st) : list msg := match s_fl s with Some m => [core m] | None => [] end.
Definition fut (x : N) (os : list op) : nat := length (filter (N.eqb x) (all_pushes os)).

Lemma mine_app x a b : mine x (a ++ b) = mine x a ++ mine x b.
Proof. apply filter_app. Qed.
Lemma mine_perm x a b : Permutation a b -> Permutation (mine x a) (mine x b).
Proof.
  unfold mine. induction 1; cbn; auto.
  - destruct (N.eqb _ _); auto.
  - destruct (N.eqb (m_init y) x), (N.eqb (m_init x0) x); auto. apply perm_swap.
  - eapply perm_trans; eauto.
Qed.
Lemma mine_sub x a b : sub a b -> sub (mine x a) (mine x b).
Proof. intros [r H]. exists (mine x r). rewrite <- mine_app. apply mine_perm; assumption. Qed.
Lemma sub_nil {A} (a : list A) : sub a [] -> a = [].
Proof. intros [r H]. apply Permutation_sym, Permutation_nil in H. destruct a; [reflexivity|discriminate]. Qed.
Lemma sub_one {A} (a : list A) m : sub a [m] -> a = [] \/ a = [m].
Proof.
  intros [r H]. apply Permutation_sym in H. apply Permutation_length_1_inv in H.
  destruct a as [|y [|z a]]; [left; reflexivity| |discriminate].
  right. inversion H; subst. reflexivity.
Qed.
Lemma sub_length {A} (a b : list A) : sub a b -> (length a <= length b)%nat.
Proof. intros [r H]. apply Permutation_length in H. rewrite app_length in H. lia. Qed.

Inductive track (x : N) (n a0 : Z) (s : st) (f : nat) (ns nh : Z) : Prop :=
| t_dead : s_dead s = true -> ns <= Z.max 1 n -> 0 <= ns -> track x n a0 s f ns nh
| t_fut : (f <= 1)%nat -> mine x (flc s ++ held s) = [] -> ns = 0 -> nh = 0 -> a0 = 0 -> track x n a0 s f ns nh
| t_cur m : f = O -> mine x (flc s ++ held s) = [m] -> m_type m <> TBoot -> m_att m = a0 + nh -> 0 <= ns <= nh ->
    (ns <= Z.max 0 (n - 1) \/ (mine x (flc s) = [m] /\ ns <= Z.max 1 n)) -> track x n a0 s f ns nh
| t_gone : f = O -> mine x (flc s ++ held s) = [] -> 0 <= ns <= Z.max 1 n -> track x n a0 s f ns nh.

Lemma track_bound x n a0 s f ns nh : track x n a0 s f ns nh -> ns <= Z.max 1 n.
Proof. intros [?|? ? ?|? ? ? ? ? ? [?|[? ?]]|?]; lia. Qed.

Definition dsucc (x : N) (l : list out) : Z := Z.of_nat (transmissions x l).
Definition dhand (x : N) (l : list out) : Z := Z.of_nat (handovers x l).

Lemma quiet_dsucc x l : quiet l -> dsucc x l = 0.
Proof.
  unfold quiet, dsucc, transmissions. induction l as [|y l IH]; cbn; [reflexivity|]. intros H. apply andb_prop in H as [Hy Hl].
  destruct y; try discriminate; apply IH; assumption.
Qed.
Lemma quiet_dhand x l : quiet l -> dhand x l = 0.
Proof.
  unfold quiet, dhand, handovers. induction l as [|y l IH]; cbn; [reflexivity|]. intros H. apply andb_prop in H as [Hy Hl].
  destruct y; try discriminate; apply IH; assumption.
Qed.
Lemma dsucc_send x m b l : quiet l -> dsucc x (OSend m b :: l) = if b && N.eqb (m_init m) x then 1 else 0.
Proof.
  intros H. apply (quiet_dsucc x) in H. unfold dsucc, transmissions in *. cbn. destruct b; cbn; [|exact H].
  destruct (N.eqb _ _); cbn [length]; lia.
Qed.
Lemma dhand_send x m b l : quiet l -> dhand x (OSend m b :: l) = if N.eqb (m_init m) x then 1 else 0.
Proof.
  intros H. apply (quiet_dhand x) in H. unfold dhand, handovers in *. cbn.
  destruct (N.eqb _ _); cbn [length]; lia.
Qed.
Lemma transmissions_app x a b : transmissions x (a ++ b) = (transmissions x a + transmissions x b)%nat.
Proof. unfold transmissions. rewrite filter_app, app_length. reflexivity. Qed.
Lemma handovers_app x a b : handovers x (a ++ b) = (handovers x a + handovers x b)%nat.
Proof. unfold handovers. rewrite filter_app, app_length. reflexivity. Qed.

Lemma fut_cons x o os : fut x (o :: os) = (fut x [o] + fut x os)%nat.
Proof. unfold fut, all_pushes. cbn. rewrite app_nil_r, filter_app, app_length. reflexivity. Qed.

Lemma mine_pushed x s o : length (mine x (pushed s o)) = fut x [o] /\
  (Forall (fun m => m_att m = 0) (pushed s o)) /\ (not_boot x [o] -> Forall (fun m => m_type m <> TBoot) (mine x (pushed s o))).
Proof.
  destruct o; cbn; try (repeat split; auto; fail); unfold fut; cbn; rewrite (N.eqb_sym x);
    destruct (N.eqb_spec (k_id k) x); cbn; (split; [reflexivity|split; [auto|]]);
    intros H; inversion H; subst; auto; constructor; auto.
Qed.

Lemma push_flight_fut s o x : s_fl s <> s_fl (fst (step s o)) -> fut x [o] = 0%nat.
Proof.
  destruct o; try reflexivity; intros H; exfalso; apply H; symmetry; cbn [step]; (destruct (s_dead s); [reflexivity|]).
  - unfold push_call. destruct (negb _); [reflexivity|].
    destruct (is_tx _ _); [unfold add_tx; rewrite (proj2 (check_sizes_held _)); reflexivity|].
    destruct (_ || _); [unfold add_normal; rewrite (proj2 (check_sizes_held _))|]; reflexivity.
  - unfold push_call_async. destruct (negb _); [reflexivity|].
    destruct (is_tx _ _); [unfold add_tx; rewrite (proj2 (check_sizes_held _)); reflexivity|].
    destruct (_ && _); [|unfold add_normal; rewrite (proj2 (check_sizes_held _))]; reflexivity.
Qed.

Lemma track_step x n a0 s o f ns nh :
  0 <= a0 -> (forall c i, o <> Restart c i) -> not_boot x [o] -> c_attempts (s_cfg s) <= n ->
  track x n a0 s (fut x [o] + f) ns nh ->
  track x n a0 (fst (step s o)) f (ns + dsucc x (snd (step s o))) (nh + dhand x (snd (step s o))).
Proof.
  intros Ha0 Hr Hb Hc T. pose proof (track_bound _ _ _ _ _ _ _ T) as Tb.
  assert (Hdead : s_dead s = true -> fst (step s o) = s /\ snd (step s o) = []).
  { intros Hd. destruct o; cbn [step]; rewrite ?Hd; auto. exfalso; eapply Hr; reflexivity. }
  destruct (s_dead s) eqn:Ed.
  { destruct (Hdead eq_refl) as [-> ->]. change (dsucc x []) with 0. rewrite Z.add_0_r.
    apply t_dead; [assumption|lia|]. destruct T; lia. }
  destruct (mine_pushed x s o) as (P1 & P2 & P3). specialize (P3 Hb).
  destruct (step_vstep s o Hr) as
    [D|Q F H|y0 y rest now E1 E2 E3 E4 E5 E6 E7|y0 y rest now l' E1 E2 E3 E4 E5 E6 E7 E8|m E1 E2 E3 E4|m E1 E2 E3 E4 E5].
  - (* process died *)
    assert (dsucc x (snd (step s o)) = 0) as Hz.
    { destruct o; try (apply quiet_dsucc, step_quiet; discriminate). cbn [step] in *. rewrite Ed in *.
      destruct (work_cases now ok s) as [E|(sel & z & H1 & H2 & H3 & H4 & H5 & H6 & H7 & H8)]; [rewrite E; reflexivity|].
      rewrite H8 in D. rewrite H7. destruct (transmit_outs sel z now ok s) as (r & R1 & R2 & _). rewrite R1, dsucc_send by assumption.
      destruct ok; [|reflexivity]. exfalso. cbn in D. unfold finish_iteration in D.
      match type of D with context [no_messages ?q] => destruct (no_messages q) end; cbn in D;
      destruct sel; cbn in D; congruence. }
    rewrite Hz. apply t_dead; [assumption|lia|]. destruct T; lia.
  - (* nothing sent, objects may be dropped, one may be added *)
    rewrite quiet_dsucc, quiet_dhand, !Z.add_0_r by assumption.
    assert (G : sub (mine x (flc (fst (step s o)) ++ held (fst (step s o)))) (mine x (flc s ++ held s) ++ mine x (pushed s o))).
    { rewrite <- mine_app. apply mine_sub. unfold flc. rewrite F. rewrite <- app_assoc.
      destruct H as [r H]. exists r. rewrite <- app_assoc. apply Permutation_app_head; assumption. }
    assert (Gf : flc (fst (step s o)) = flc s) by (unfold flc; rewrite F; reflexivity).
    destruct T as [T|T1 T2 T3 T4 T5|m T1 T2 T3 T4 T5 T6|T1 T2 T3]; [congruence| | |].
    + rewrite T2 in G. cbn in G. destruct (fut x [o]) eqn:Ef.
      * assert (Ep : mine x (pushed s o) = []) by (apply length_zero_iff_nil; congruence).
        rewrite Ep in G. apply sub_nil in G. apply t_fut; auto.
      * assert (f = O) by lia. subst f.
        destruct (mine x (pushed s o)) as [|p [|p' r]] eqn:Ep; cbn in P1; [lia| |lia].
        apply sub_one in G as [G|G].
        -- apply t_gone; auto. lia.
        -- inversion P3; subst. apply (t_cur _ _ _ _ _ _ _ p); auto; try lia.
           rewrite Forall_forall in P2. rewrite (P2 p); [reflexivity|].
           assert (In p (mine x (pushed s o))) by (rewrite Ep; left; reflexivity). unfold mine in H0. apply filter_In in H0. tauto.
    + assert (fut x [o] = O) as Ef by lia. assert (f = O) by lia. subst f.
      assert (Ep : mine x (pushed s o) = []) by (apply length_zero_iff_nil; congruence).
      rewrite T2, Ep, app_nil_r in G. apply sub_one in G as [G|G].
      * apply t_gone; auto. lia.
      * apply (t_cur _ _ _ _ _ _ _ m); auto. rewrite Gf. assumption.
    + assert (fut x [o] = O) as Ef by lia. assert (f = O) by lia. subst f.
      assert (Ep : mine x (pushed s o) = []) by (apply length_zero_iff_nil; congruence).
      rewrite T2, Ep in G. cbn in G. apply sub_nil in G. apply t_gone; auto.
  - (* a successful transmission *)
    subst o. change (fut x [Work now true]) with 0%nat in T. cbn [Nat.add] in T. rewrite E7, dsucc_send, dhand_send by reflexivity. cbn [andb].
    assert (G : Permutation (mine x (flc s ++ held s)) (mine x [core y0] ++ mine x rest)).
    { unfold flc. rewrite E2. cbn [app]. rewrite <- mine_app. apply mine_perm. assumption. }
    assert (G' : Permutation (mine x (flc (fst (step s (Work now true))) ++ held (fst (step s (Work now true)))))
                   (mine x [core y] ++ mine x rest)).
    { unfold flc. rewrite E4. rewrite <- mine_app. apply mine_perm. apply Permutation_app_head. assumption. }
    assert (Gfl : mine x (flc (fst (step s (Work now true)))) = mine x [core y]) by (unfold flc; rewrite E4; reflexivity).
    assert (Gi : m_init y = m_init y0 /\ m_att y = m_att y0 + 1 /\ m_type y = m_type y0).
    { clear - E5. unfold core, bump in E5. cbn in E5. inversion E5. auto. }
    destruct Gi as (Gi & Ga & Gt).
    assert (M : forall z, mine x [core z] = if N.eqb (m_init z) x then [core z] else []) by reflexivity.
    rewrite M in G, G', Gfl. rewrite Gi in *.
    destruct (N.eqb (m_init y0) x) eqn:Ex.
    + destruct T as [T|T1 T2 T3 T4 T5|m T1 T2 T3 T4 T5 T6|T1 T2 T3]; [congruence| | |].
      * rewrite T2 in G. apply Permutation_length in G. discriminate.
      * rewrite T2 in G. pose proof (Permutation_length G) as L. cbn in L.
        destruct (mine x rest) eqn:Er; [|discriminate]. cbn in G, G'. apply Permutation_length_1 in G. subst m.
        apply Permutation_sym, Permutation_length_1_inv in G'.
        apply (t_cur _ _ _ _ _ _ _ (core y)); auto.
        -- cbn in *. congruence.
        -- cbn in *. lia.
        -- lia.
        -- right. split; [assumption|]. destruct T6 as [T6|[T6 T7]]; [lia|]. unfold flc in T6. rewrite E2 in T6. discriminate.
      * rewrite T2 in G. apply Permutation_length in G. discriminate.
    + rewrite !Z.add_0_r. cbn in G, G'. assert (G'' : Permutation (mine x (flc (fst (step s (Work now true))) ++ held (fst (step s (Work now true)))))
         (mine x (flc s ++ held s))) by (rewrite G', G; reflexivity).
      destruct T as [T|T1 T2 T3 T4 T5|m T1 T2 T3 T4 T5 T6|T1 T2 T3]; [congruence| | |].
      * rewrite T2 in G''. apply Permutation_sym, Permutation_nil in G''. apply t_fut; auto.
      * rewrite T2 in G''. apply Permutation_sym, Permutation_length_1_inv in G''. apply (t_cur _ _ _ _ _ _ _ m); auto.
        destruct T6 as [T6|[T6 T7]]; [left; assumption|]. unfold flc in T6. rewrite E2 in T6. discriminate.
      * rewrite T2 in G''. apply Permutation_sym, Permutation_nil in G''. apply t_gone; auto.
  - (* a failed transmission *)
    subst o. change (fut x [Work now false]) with 0%nat in T. cbn [Nat.add] in T. rewrite E7, dsucc_send, dhand_send by assumption. cbn [andb]. rewrite Z.add_0_r.
    assert (G : Permutation (mine x (flc s ++ held s)) (mine x [core y0] ++ mine x rest)).
    { unfold flc. rewrite E2. cbn [app]. rewrite <- mine_app. apply mine_perm. assumption. }
    assert (G' : sub (mine x (flc (fst (step s (Work now false))) ++ held (fst (step s (Work now false)))))
                   (mine x [core y] ++ mine x rest)).
    { unfold flc. rewrite E4. rewrite <- mine_app. apply mine_sub. assumption. }
    assert (Gi : m_init y = m_init y0 /\ m_att y = m_att y0 + 1 /\ m_type y = m_type y0).
    { clear - E5. unfold core, bump in E5. cbn in E5. inversion E5. auto. }
    destruct Gi as (Gi & Ga & Gt).
    assert (M : forall z, mine x [core z] = if N.eqb (m_init z) x then [core z] else []) by reflexivity.
    rewrite M in G, G'. rewrite Gi in *.
    destruct (N.eqb (m_init y0) x) eqn:Ex.
    + destruct T as [T|T1 T2 T3 T4 T5|m T1 T2 T3 T4 T5 T6|T1 T2 T3]; [congruence| | |].
      * rewrite T2 in G. apply Permutation_length in G. discriminate.
      * rewrite T2 in G. pose proof (Permutation_length G) as L. cbn in L.
        destruct (mine x rest) eqn:Er; [|discriminate]. cbn in G, G'. apply Permutation_length_1 in G. subst m.
        apply sub_one in G' as [G'|G'].
        -- apply t_gone; auto. lia.
        -- apply (t_cur _ _ _ _ _ _ _ (core y)); auto.
           ++ cbn in *. congruence.
           ++ cbn in *. lia.
           ++ lia.
           ++ destruct T6 as [T6|[T6 T7]]; [left; lia|]. unfold flc in T6. rewrite E2 in T6. discriminate.
      * rewrite T2 in G. apply Permutation_length in G. discriminate.
    + rewrite !Z.add_0_r. cbn in G, G'. assert (G'' : sub (mine x (flc (fst (step s (Work now false))) ++ held (fst (step s (Work now false)))))
         (mine x (flc s ++ held s))) by (eapply sub_trans; [exact G'|apply sub_perm; symmetry; exact G]).
      destruct T as [T|T1 T2 T3 T4 T5|m T1 T2 T3 T4 T5 T6|T1 T2 T3]; [congruence| | |].
      * rewrite T2 in G''. apply sub_nil in G''. apply t_fut; auto.
      * rewrite T2 in G''. apply sub_one in G'' as [G''|G'']; [apply t_gone; auto; lia|].
        apply (t_cur _ _ _ _ _ _ _ m); auto.
        destruct T6 as [T6|[T6 T7]]; [left; assumption|]. unfold flc in T6. rewrite E2 in T6. discriminate.
      * rewrite T2 in G''. apply sub_nil in G''. apply t_gone; auto.
  - (* the message in flight is finished *)
    rewrite quiet_dsucc, quiet_dhand, !Z.add_0_r by assumption.
    assert (Hp : pushed s o = [] \/ exists k, pushed s o = [core k]) by (destruct o; cbn; eauto).
    assert (G : flc (fst (step s o)) = []) by (unfold flc; rewrite E2; reflexivity).
    assert (G2 : flc s = [core m]) by (unfold flc; rewrite E1; reflexivity).
    assert (Ef : fut x [o] = 0%nat).
    { apply (push_flight_fut s). rewrite E1, E2. discriminate. }
    rewrite Ef in T. cbn [Nat.add] in T.
    assert (GG : mine x (flc (fst (step s o)) ++ held (fst (step s o))) = mine x (held s)) by (rewrite G, E3; reflexivity).
    destruct T as [T|T1 T2 T3 T4 T5|m' T1 T2 T3 T4 T5 T6|T1 T2 T3]; [congruence| | |].
    + rewrite G2 in T2. rewrite mine_app in T2. apply app_eq_nil in T2 as [_ T2]. apply t_fut; auto. congruence.
    + rewrite G2 in T2. rewrite mine_app in T2. destruct (mine x [core m]) as [|a [|b r]] eqn:Em.
      * cbn in T2. apply (t_cur _ _ _ _ _ _ _ m'); auto; [congruence|].
        destruct T6 as [T6|[T6 _]]; [left; assumption|congruence].
      * cbn in T2. inversion T2 as [[H0 H1]]. apply t_gone; auto; [congruence|]. destruct T6 as [T6|[_ T6]]; lia.
      * discriminate.
    + rewrite G2 in T2. rewrite mine_app in T2. apply app_eq_nil in T2 as [_ T2]. apply t_gone; auto. congruence.
  - (* the message in flight is queued again *)
    rewrite quiet_dsucc, quiet_dhand, !Z.add_0_r by assumption.
    assert (G : flc (fst (step s o)) = []) by (unfold flc; rewrite E2; reflexivity).
    assert (G2 : flc s = [core m]) by (unfold flc; rewrite E1; reflexivity).
    assert (Ef : fut x [o] = 0%nat).
    { apply (push_flight_fut s). rewrite E1, E2. discriminate. }
    rewrite Ef in T. cbn [Nat.add] in T.
    assert (GG : Permutation (mine x (flc (fst (step s o)) ++ held (fst (step s o)))) (mine x (flc s ++ held s))).
    { rewrite G, G2. cbn [app]. apply mine_perm. assumption. }
    destruct T as [T|T1 T2 T3 T4 T5|m' T1 T2 T3 T4 T5 T6|T1 T2 T3]; [congruence| | |].
    + rewrite T2 in GG. apply Permutation_sym, Permutation_nil in GG. apply t_fut; auto.
    + rewrite T2 in GG. apply Permutation_sym, Permutation_length_1_inv in GG. apply (t_cur _ _ _ _ _ _ _ m'); auto.
      destruct T6 as [T6|[T6 T7]]; [left; assumption|]. left.
      assert (m' = core m) as ->. { rewrite G2 in T6. cbn in T6. destruct (N.eqb _ _); [|discriminate]. congruence. }
      destruct E5 as [E5|E5]; [cbn in T3; congruence|]. cbn in T4.
      lia.
    + rewrite T2 in GG. apply Permutation_sym, Permutation_nil in GG. apply t_gone; auto.
Qed.

Lemma attempts_step s o n : (forall c i, o <> Restart c i) -> c_attempts (s_cfg s) <= n -> attempts_bounded n [o] ->
  c_attempts (s_cfg (fst (step s o))) <= n.
Proof.
  intros Hr Hc Hb.
  assert (Hcs : forall s, s_cfg (fst (check_sizes s)) = s_cfg s).
  { intros s0. unfold check_sizes. destruct (over _ _ _); [|reflexivity].
    destruct (drop_normal _ _ _ _), (drop_tx _ _ _ _ _). reflexivity. }
  assert (Hfi : forall s, s_cfg (finish_iteration s) = s_cfg s).
  { intros s0. unfold finish_iteration. destruct (no_messages s0); reflexivity. }
  assert (Hhf : forall e i t z, s_cfg (fst (handle_failure e i t z)) = s_cfg z).
  { intros e i t z. unfold handle_failure. destruct (s_fl z); [|reflexivity].
    destruct (is_tx _ _); cbn [orb]; [|destruct (check_queue _ _)].
    - destruct (_ <? _); [reflexivity|]. destruct (resolvable _ _); reflexivity.
    - destruct (_ <? _); [reflexivity|]. destruct (resolvable _ _); reflexivity.
    - destruct (mtype_eqb _ _); [reflexivity|]. destruct (resolvable _ _); reflexivity. }
  destruct (s_dead s) eqn:Ed; [destruct o; cbn [step]; rewrite ?Ed; auto; exfalso; eapply Hr; reflexivity|].
  destruct o; cbn [step]; rewrite ?Ed; try assumption.
  - unfold push_call. destruct (negb _); [assumption|]. destruct (is_tx _ _).
    + unfold add_tx. rewrite Hcs. assumption.
    + destruct (_ || _); [|assumption]. unfold add_normal. rewrite Hcs. assumption.
  - unfold push_call_async. destruct (negb _); [assumption|]. destruct (is_tx _ _).
    + unfold add_tx. rewrite Hcs. assumption.
    + destruct (_ && _); [assumption|]. unfold add_normal. rewrite Hcs. assumption.
  - unfold push_reply. destruct (negb _); [assumption|]. destruct (s_next s); [destruct (N.eqb _ _)|]; assumption.
  - assert (T : forall sel x, s_cfg (fst (transmit sel x now ok s)) = s_cfg s).
    { intros sel x. unfold transmit. destruct ok; [cbn; rewrite Hfi; destruct sel; reflexivity|].
      destruct (is_tx _ _); [cbn; rewrite Hfi; destruct sel; reflexivity|].
      destruct (check_queue _ _); [cbn; rewrite Hfi; destruct sel; reflexivity|].
      destruct sel; try (destruct (resolvable _ _)); cbn; rewrite ?Hfi; reflexivity. }
    unfold work. destruct (negb _); [assumption|]. destruct (negb _); [assumption|].
    unfold iterate. destruct (no_messages s); [assumption|]. destruct (s_paused s); [assumption|].
    destruct (s_fl s); [assumption|]. destruct (select s now) as [|a b d|b d]; [assumption| |];
    (destruct (held_back s b); [assumption|]);
    [specialize (T (SelNormal a b d) b); destruct (transmit (SelNormal a b d) b now ok s)|
     specialize (T (SelTx b d) b); destruct (transmit (SelTx b d) b now ok s)]; cbn in *; congruence.
  - unfold recv_result. destruct (s_fl s); [|assumption]. destruct (N.eqb _ _); [|assumption].
    unfold handle_call_result. destruct (resolvable _ _); [|assumption]. cbn.
    destruct (is_tx _ _); [|destruct (check_queue _ _)]; assumption.
  - unfold recv_error_begin. destruct (s_fl s); [|assumption]. destruct (N.eqb _ _); assumption.
  - unfold recv_error_end. destruct (s_errs s); [assumption|]. rewrite Hhf. assumption.
  - unfold recv_error. destruct (s_fl s); [|assumption]. destruct (N.eqb _ _); [|assumption]. rewrite Hhf. assumption.
  - unfold timer_expire. destruct (s_armed s) as [t|]; [destruct (t <=? now)|]; assumption.
  - unfold timer_run. destruct (s_fired s); [|assumption]. rewrite Hhf. assumption.
  - destruct (s_armed s) as [t|]; [destruct (t <=? now)|]; try assumption. rewrite Hhf. assumption.
  - destruct (s_nt s) as [t|]; [destruct (t <=? now)|]; assumption.
  - cbn [fst]. unfold resume. destruct (negb _); [assumption|]. destruct (_ && _); [assumption|].
    unfold resume_now. destruct (N.eqb _ _); assumption.
  - cbn [fst]. unfold resume_timer. destruct (existsb _ _); [|assumption]. unfold resume_now. destruct (N.eqb _ _); assumption.
  - cbn [fst]. unfold add_meter_id. destruct (lookup _ _); assumption.
  - cbn [fst]. unfold start_handled. destruct (lookup _ _); assumption.
  - inversion Hb; subst. assumption.
  - exfalso; eapply Hr; reflexivity.
Qed.

Lemma no_restart_not os o : no_restart (o :: os) -> (forall c i, o <> Restart c i) /\ no_restart os.
Proof. intros H. inversion H; subst. split; [|assumption]. intros c i ->. contradiction. Qed.

Lemma track_run x n a0 os : forall s f ns nh,
  0 <= a0 -> no_restart os -> not_boot x os -> c_attempts (s_cfg s) <= n -> attempts_bounded n os ->
  track x n a0 s (fut x os + f) ns nh ->
  track x n a0 (final s os) f (ns + dsucc x (outs (trace s os))) (nh + dhand x (outs (trace s os))).
Proof.
  induction os as [|o os IH]; intros s f ns nh Ha Hr Hb Hc Hn T.
  - cbn [trace final outs flat_map]. change (dsucc x []) with 0. change (dhand x []) with 0. rewrite !Z.add_0_r. exact T.
  - apply no_restart_not in Hr as [Hr1 Hr2]. inversion Hb; subst. inversion Hn; subst.
    rewrite fut_cons, <- Nat.add_assoc in T.
    cbn [trace final]. change (outs ((o, snd (step s o)) :: trace (fst (step s o)) os)) with (snd (step s o) ++ outs (trace (fst (step s o)) os)).
    unfold dsucc, dhand. rewrite transmissions_app, handovers_app, !Nat2Z.inj_add, !Z.add_assoc.
    apply IH; auto.
    + apply attempts_step; auto. constructor; auto.
    + apply track_step; auto. constructor; auto.
Qed.

Lemma fut_count x os : fut x os = count_occ N.eq_dec (all_pushes os) x.
Proof.
  unfold fut. induction (all_pushes os) as [|y l IH]; cbn; [reflexivity|].
  destruct (N.eqb_spec x y), (N.eq_dec y x); cbn; subst; congruence.
Qed.

Lemma retries_bounded c os id n :
  c_attempts c <= n -> attempts_bounded n os -> no_restart os -> not_boot id os ->
  (count_occ N.eq_dec (all_pushes os) id <= 1)%nat ->
  Z.of_nat (transmissions id (outs (trace (fresh c) os))) <= Z.max 1 n.
Proof.
  intros H1 H2 H3 H4 H5. rewrite <- fut_count in H5.
  assert (T : track id n 0 (fresh c) (fut id os + 0) 0 0) by (apply t_fut; auto; lia).
  apply track_run in T; auto; [|lia]. apply track_bound in T. exact T.
Qed.

(** The same after a restart, for a message that was loaded from the database. *)
Lemma retries_bounded_restart s c ig os id n :
  c_attempts c <= n -> attempts_bounded n os -> no_restart os -> ~ In id (all_pushes os) ->
  (length (filter (fun r => N.eqb (r_mid r) id) (s_dbn s ++ s_dbt s)) <= 1)%nat ->
  Forall (fun r => r_mid r = id -> r_type r <> TBoot /\ 0 <= r_att r) (s_dbn s ++ s_dbt s) ->
  Z.of_nat (transmissions id (outs (trace (fst (step s (Restart c ig))) os))) <= Z.max 1 n.
Proof.
  intros H1 H2 H3 H4 H5 H6. cbn [step fst]. set (s0 := init c _ _ _ _).
  destruct (load_persisted_fields ig s0) as (E1 & E2 & _ & _ & _ & h1 & h2 & E3 & E4 & _).
  set (s' := load_persisted ig s0) in *. clearbody s'. cbn in E1, E2, E3, E4.
  assert (Hf : fut id os = O) by (rewrite fut_count; apply count_occ_not_In; assumption).
  assert (Hb : not_boot id os).
  { unfold not_boot. apply Forall_forall. intros o Ho.
    assert (K : forall k, (exists n st, o = Push k n st) \/ (exists n, o = PushAsync k n) -> k_id k = id -> False).
    { intros k Hk Hid. apply H4. unfold all_pushes. apply in_flat_map. exists o. split; [assumption|].
      destruct Hk as [(a & b & ->)|(a & ->)]; left; assumption. }
    destruct o; auto; intros Hid; exfalso; eapply K; eauto. }
  set (keep := fun r => negb (ig && mtype_eqb (r_type r) TSecurity)) in *.
  assert (L : forall h l, Forall (fun r => r_mid r = id -> r_type r <> TBoot /\ 0 <= r_att r) l ->
     (length (mine id (map core (number_rows h (filter keep l)))) <= length (filter (fun r => N.eqb (r_mid r) id) l))%nat /\ Forall (fun m => m_type m <> TBoot /\ 0 <= m_att m) (mine id (map core (number_rows h (filter keep l))))).
  { intros h l; revert h; induction l as [|r l IH]; intros h F; cbn; [split; [lia|constructor]|].
    inversion F; subst. destruct (keep r); cbn.
    - destruct (IH (h + 1)%N H8) as [I1 I2]. destruct (N.eqb_spec (r_mid r) id); cbn; split; try lia; auto.
      + unfold mine in *. lia.
    - destruct (IH h H8) as [I1 I2]. destruct (N.eqb (r_mid r) id); cbn; split; auto; unfold mine in *; lia. }
  apply Forall_app in H6 as [H6a H6b]. rewrite filter_app, app_length in H5.
  destruct (L h1 _ H6a) as [La1 La2]. destruct (L h2 _ H6b) as [Lb1 Lb2].
  assert (Hm : mine id (flc s' ++ held s') = mine id (map core (number_rows h1 (filter keep (s_dbn s)))) ++
      mine id (map core (number_rows h2 (filter keep (s_dbt s))))).
  { unfold flc, held. rewrite E2, E3, E4. cbn [app]. rewrite map_app, mine_app. reflexivity. }
  assert (Hall : Forall (fun m => m_type m <> TBoot /\ 0 <= m_att m) (mine id (flc s' ++ held s'))).
  { rewrite Hm. apply Forall_app; split; assumption. }
  assert (Hlen : (length (mine id (flc s' ++ held s')) <= 1)%nat) by (rewrite Hm, app_length; lia).
  clear Hm. remember (mine id (flc s' ++ held s')) as l eqn:El. symmetry in El. destruct l as [|m [|m' l]].
  - assert (T : track id n 0 s' (fut id os + 0) 0 0) by (rewrite Hf; apply t_fut; auto; lia).
    apply track_run in T; auto; [|lia|rewrite E1; assumption]. apply track_bound in T. exact T.
  - inversion Hall as [|? ? [Hm1 Hm2]]; subst.
    assert (T : track id n (m_att m) s' (fut id os + 0) 0 0).
    { rewrite Hf. apply (t_cur _ _ _ _ _ _ _ m); auto; lia. }
    apply track_run in T; auto. apply track_bound in T. exact T.
  - cbn in Hlen. lia.
Qed.

(** Giving up happens in the handling of a failure of the message in flight whose attempts are used up. *)
Lemma drop_attempts_step s o m : In (ODrop m DropAttempts) (snd (step s o)) ->
  s_fl s = Some m /\ c_attempts (s_cfg s) <= m_att m /\ s_dead s = false.
Proof.
  assert (Hcs : forall z, ~ In (ODrop m DropAttempts) (snd (check_sizes z))).
  { intros z. unfold check_sizes. destruct (over _ _ _); [|intros []].
    destruct (drop_normal _ _ _ _), (drop_tx _ _ _ _ _). cbn. intros H. apply in_map_iff in H as (y & Hy & _). discriminate. }
  assert (Hhf : forall e i t z, s_fl z = s_fl s -> s_cfg z = s_cfg s -> In (ODrop m DropAttempts) (snd (handle_failure e i t z)) ->
     s_fl s = Some m /\ c_attempts (s_cfg s) <= m_att m).
  { intros e i t z Hf Hc. unfold handle_failure. rewrite Hf, Hc. destruct (s_fl s) as [m'|]; [|intros [H|[]]; discriminate].
    destruct (_ || _).
    - destruct (_ <? _) eqn:Ea.
      + destruct (is_start _ _); [intros [H|[]]; discriminate|intros []].
      + destruct (resolvable _ _); [|intros [H|[]]; discriminate]. intros [H|[H|[]]]; [discriminate|].
        inversion H; subst. split; [reflexivity|lia].
    - destruct (mtype_eqb _ _); [intros []|]. destruct (resolvable _ _); [|intros [H|[]]; discriminate].
      intros [H|[H|[]]]; discriminate. }
  destruct (s_dead s) eqn:Ed; [destruct o; cbn [step]; rewrite ?Ed; intros []|].
  intros H. cut (s_fl s = Some m /\ c_attempts (s_cfg s) <= m_att m); [tauto|].
  destruct o; cbn [step] in H; rewrite ?Ed in H; try (exfalso; exact H).
  - exfalso. unfold push_call in H. destruct (negb _); [exact H|]. destruct (is_tx _ _).
    + unfold add_tx, add_normal in H; exact (Hcs _ H).
    + destruct (_ || _); [unfold add_tx, add_normal in H; exact (Hcs _ H)|exact H].
  - exfalso. unfold push_call_async in H. destruct (negb _); [destruct H as [H|[]]; discriminate|]. destruct (is_tx _ _).
    + unfold add_tx, add_normal in H; exact (Hcs _ H).
    + destruct (_ && _); [destruct H as [H|[]]; discriminate|unfold add_tx, add_normal in H; exact (Hcs _ H)].
  - exfalso. unfold push_reply in H. destruct (negb _); [exact H|destruct H as [H|[]]; discriminate].
  - exfalso. destruct (work_cases now ok s) as [E|(sel & z & H1 & H2 & H3 & H4 & H5 & H6 & H7 & H8)]; [rewrite E in H; exact H|].
    rewrite H7 in H. clear - H. unfold transmit in H. destruct ok; [destruct H as [H|[]]; discriminate|].
    destruct (is_tx _ _); [destruct H as [H|[]]; discriminate|].
    destruct (check_queue _ _); [destruct H as [H|[]]; discriminate|].
    destruct sel; try (destruct H as [H|[]]; discriminate).
    destruct (resolvable _ _); [|destruct H as [H|[H|[]]]; discriminate].
    destruct H as [H|[H|H]]; try discriminate. cbn in H. destruct (pre ++ _); [exact H|destruct H as [H|[]]; discriminate].
  - exfalso. unfold recv_result in H. destruct (s_fl s); [|exact H]. destruct (N.eqb _ _); [|exact H].
    unfold handle_call_result in H. destruct (resolvable _ _); destruct H as [H|[]]; discriminate.
  - exfalso. unfold recv_error_begin in H. destruct (s_fl s); [|exact H]. destruct (N.eqb _ _); exact H.
  - unfold recv_error_end in H. destruct (s_errs s); [destruct H|]. eapply Hhf; [| |exact H]; reflexivity.
  - unfold recv_error in H. destruct (s_fl s) eqn:Ef; [|destruct H]. destruct (N.eqb _ _); [|destruct H].
    rewrite <- Ef. rewrite <- Ef in Hhf. eapply Hhf; [| |exact H]; cbn; congruence.
  - exfalso. unfold timer_expire in H. destruct (s_armed s) as [t|]; [destruct (t <=? now)|]; exact H.
  - unfold timer_run in H. destruct (s_fired s); [|destruct H]. eapply Hhf; [| |exact H]; reflexivity.
  - destruct (s_armed s) as [t|]; [destruct (t <=? now)|]; try (exfalso; exact H). eapply Hhf; [| |exact H]; reflexivity.
  - exfalso. destruct (s_nt s) as [t|]; [destruct (t <=? now)|]; exact H.
Qed.

Lemma gives_up_after_attempts c os o m n :
  c_attempts c <= n -> attempts_bounded n os ->
  no_restart os -> not_boot (m_init m) os -> (count_occ N.eq_dec (all_pushes os) (m_init m) <= 1)%nat ->
  let s := final (fresh c) os in
  In (ODrop m DropAttempts) (snd (step s o)) ->
  c_attempts (s_cfg s) <= Z.of_nat (handovers (m_init m) (outs (trace (fresh c) os))).
Proof.
  cbn zeta. intros H1 H2 H3 H4 H5 H. apply drop_attempts_step in H as (Hf & Ha & Hd).
  rewrite <- fut_count in H5.
  assert (T : track (m_init m) n 0 (fresh c) (fut (m_init m) os + 0) 0 0) by (apply t_fut; auto; lia).
  apply track_run in T; auto; [|lia].
  assert (E : mine (m_init m) (flc (final (fresh c) os) ++ held (final (fresh c) os)) = core m :: mine (m_init m) (held (final (fresh c) os))).
  { unfold flc. rewrite Hf. cbn. rewrite N.eqb_refl. reflexivity. }
  rewrite E in T || idtac. destruct T as [T|T1 T2 T3 T4 T5|m' T1 T2 T3 T4 T5 T6|T1 T2 T3]; try congruence.
  rewrite E in T2. inversion T2; subst. cbn in T4. unfold dhand in T4. lia.
Qed.

