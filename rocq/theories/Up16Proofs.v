(** Proofs about SetUserPrice. *)
From Coq Require Import ZArith List Bool Lia.
From Verif Require Import Up16Model Up16Spec.
Import ListNotations.
Local Open Scope list_scope.
Local Open Scope Z_scope.

Definition thread_ok (g : log) (t : Z) (p : phase) : Prop :=
  match p with
  | Idle => last_of t g = None \/ exists s r, last_of t g = Some (OResult t s r)
  | Wants i => begun g t i
  | Sent i => asks g t i
  | Waiting i => waits g t i
  end.
Record inv (e : env) (s : state) (g : log) : Prop := {
  v_ph : forall t, thread_ok g t (ph s t);
  v_ho : forall t, holder s = Some t <-> exists i, ph s t = Sent i;
  v_cv : forall i, cvs s i = true <-> exists t, ph s t = Waiting i;
  v_ra : forall t, ph s t <> Idle -> 1 <= t <= Z.of_nat (threads e);
  v_ta : forall i x, tariffs s i = Some x <-> offer g i x;
  v_tc : forall i x, tariffs s i = Some x -> cvs s i = true;
  v_st : match stuck s with Some (i, x, _) => blocked g i x | None => forall i x, ~ blocked g i x end;
  v_no : ~ In OUndefined g;
  v_al : dead s = false
}.

Lemma wants_iff e s g t i : inv e s g -> ph s t = Wants i <-> begun g t i.
Proof.
  intros V. pose proof (v_ph _ _ _ V t) as P. split; [intros X; now rewrite X in P |]. unfold begun, asks, waits, thread_ok in *. intros X.
  destruct (ph s t); unfold begun, asks, waits in P; rewrite X in P; try congruence. destruct P as [P | (? & ? & P)]; discriminate.
Qed.
Lemma asks_iff e s g t i : inv e s g -> ph s t = Sent i <-> asks g t i.
Proof.
  intros V. pose proof (v_ph _ _ _ V t) as P. split; [intros X; now rewrite X in P |]. unfold begun, asks, waits, thread_ok in *. intros X.
  destruct (ph s t); unfold begun, asks, waits in P; rewrite X in P; try congruence. destruct P as [P | (? & ? & P)]; discriminate.
Qed.
Lemma waits_iff e s g t i : inv e s g -> ph s t = Waiting i <-> waits g t i.
Proof.
  intros V. pose proof (v_ph _ _ _ V t) as P. split; [intros X; now rewrite X in P |]. unfold begun, asks, waits, thread_ok in *. intros X.
  destruct (ph s t); unfold begun, asks, waits in P; rewrite X in P; try congruence. destruct P as [P | (? & ? & P)]; discriminate.
Qed.

Lemma set_same {A} (f : Z -> A) k v : set f k v k = v.
Proof. unfold set. now rewrite Z.eqb_refl. Qed.
Lemma set_other {A} (f : Z -> A) k v x : x <> k -> set f k v x = f x.
Proof. unfold set. intros N. now rewrite (proj2 (Z.eqb_neq _ _) N). Qed.

(** An output that is not about a thread leaves what is known of it. *)
Lemma thread_other g t p o : of_thread t o = false -> thread_ok (o :: g) t p <-> thread_ok g t p.
Proof. intros N. unfold thread_ok, begun, asks, waits, last_of. cbn [find]. rewrite N. destruct p; reflexivity. Qed.
Lemma offer_other g i x o : (forall t, o <> OAuthorize t i) -> (forall t s r, o = OResult t s r -> ~ waits g t i) -> (forall y, o <> OTariff i y) -> offer (o :: g) i x <-> offer g i x.
Proof. intros A B C. split; [intros X; inversion X; subst; auto; exfalso; now apply (C x) | intros X; now apply of_keep]. Qed.
Lemma blocked_other g i x o : of_price o = false -> blocked (o :: g) i x <-> blocked g i x.
Proof. intros N. unfold blocked. cbn [find]. rewrite N. reflexivity. Qed.
Lemma stuck_other g o (k : option (Z * tariff * Z)) : of_price o = false ->
  match k with Some (i, x, _) => blocked g i x | None => forall i x, ~ blocked g i x end -> match k with Some (i, x, _) => blocked (o :: g) i x | None => forall i x, ~ blocked (o :: g) i x end.
Proof. intros N. destruct k as [((i, x), a) | ]; [now rewrite blocked_other |]. intros H i x. rewrite blocked_other; auto. Qed.

(** Outputs that change nothing. *)
Lemma inv_quiet e s g o : inv e s g -> (forall t, of_thread t o = false) -> of_price o = false -> o <> OUndefined -> inv e s (o :: g).
Proof.
  intros V T P U. assert (T' : forall t x r i, o <> OAuthorize t i /\ o <> OResult t x r) by (intros t x r i; split; intros ->; specialize (T t); cbn in T; rewrite Z.eqb_refl in T; discriminate).
  destruct V. constructor; auto.
  - intros t. now apply thread_other.
  - intros i x. rewrite offer_other; auto; [intros t; now destruct (T' t Accepted NoTariff i) | intros t y r E; now destruct (T' t y r i) | intros y ->; discriminate].
  - now apply stuck_other.
  - intros [X | X]; auto.
Qed.

Lemma begin_inv e s g t i : inv e s g -> 1 <= t <= Z.of_nat (threads e) -> inv e (fst (begin s t i)) (rev (snd (begin s t i)) ++ g).
Proof.
  intros V R. unfold begin. destruct (ph s t) eqn:E; cbn [fst snd rev app]; try (apply inv_quiet; auto; discriminate).
  constructor; cbn [ph holder cvs tariffs stuck dead].
  - intros u. destruct (Z.eq_dec u t) as [-> | N]; [rewrite set_same; cbn; unfold begun, last_of; cbn; now rewrite Z.eqb_refl |].
    rewrite set_other by auto. apply thread_other; [cbn; apply Z.eqb_neq; auto | apply (v_ph _ _ _ V)].
  - intros u. rewrite (v_ho _ _ _ V). destruct (Z.eq_dec u t) as [-> | N]; [rewrite set_same, E; split; intros (j & X); discriminate | now rewrite set_other].
  - intros j. rewrite (v_cv _ _ _ V). split; intros (u & X); exists u; destruct (Z.eq_dec u t) as [-> | N]; try (rewrite set_same in *); try (rewrite set_other in * by auto); congruence.
  - intros u. destruct (Z.eq_dec u t) as [-> | N]; auto. rewrite set_other by auto. apply (v_ra _ _ _ V).
  - intros j x. rewrite offer_other; [apply (v_ta _ _ _ V) | discriminate | discriminate | discriminate].
  - apply (v_tc _ _ _ V).
  - apply stuck_other; auto. apply (v_st _ _ _ V).
  - intros [X | X]; [discriminate | now apply (v_no _ _ _ V)].
  - apply (v_al _ _ _ V).
Qed.

Lemma lock_inv e s g t : inv e s g -> inv e (fst (lock s t)) (rev (snd (lock s t)) ++ g).
Proof.
  intros V. unfold lock. destruct (ph s t) as [ | i | i | i] eqn:E; cbn [fst snd rev app]; try (apply inv_quiet; auto; discriminate).
  destruct (holder s) as [u | ] eqn:H; cbn [fst snd rev app]; try (apply inv_quiet; auto; discriminate).
  constructor; cbn [ph holder cvs tariffs stuck dead].
  - intros u. destruct (Z.eq_dec u t) as [-> | N]; [rewrite set_same; cbn; unfold asks, last_of; cbn; now rewrite Z.eqb_refl |].
    rewrite set_other by auto. apply thread_other; [cbn; apply Z.eqb_neq; auto | apply (v_ph _ _ _ V)].
  - intros u. destruct (Z.eq_dec u t) as [-> | N]; [rewrite set_same; split; eauto |]. rewrite set_other by auto. rewrite <- (v_ho _ _ _ V). split; congruence.
  - intros j. rewrite (v_cv _ _ _ V). split; intros (u & X); exists u; destruct (Z.eq_dec u t) as [-> | N]; try (rewrite set_same in *); try (rewrite set_other in * by auto); congruence.
  - intros u. destruct (Z.eq_dec u t) as [-> | N]; [intros _; apply (v_ra _ _ _ V); congruence |]. rewrite set_other by auto. apply (v_ra _ _ _ V).
  - intros j x. destruct (Z.eq_dec j i) as [-> | N].
    + rewrite set_same. split; [discriminate |]. intros X. inversion X; subst. exfalso. match goal with Y : forall _, OAuthorize _ _ <> _ |- _ => now apply (Y t) end.
    + rewrite set_other by auto. rewrite offer_other; [apply (v_ta _ _ _ V) | congruence | discriminate | discriminate].
  - intros j x. destruct (Z.eq_dec j i) as [-> | N]; [rewrite set_same; discriminate | rewrite set_other by auto; apply (v_tc _ _ _ V)].
  - apply stuck_other; auto. apply (v_st _ _ _ V).
  - intros [X | X]; [discriminate | now apply (v_no _ _ _ V)].
  - apply (v_al _ _ _ V).
Qed.

Lemma finish_inv e s g t i r : inv e s g -> ph s t = Sent i -> inv e (fst (finish s t r)) (rev (snd (finish s t r)) ++ g).
Proof.
  intros V E. unfold finish. cbn [fst snd rev app].
  assert (H : holder s = Some t) by (apply (v_ho _ _ _ V); eauto).
  constructor; cbn [ph holder cvs tariffs stuck dead].
  - intros u. destruct (Z.eq_dec u t) as [-> | N]; [rewrite set_same; cbn; right; unfold last_of; cbn; rewrite Z.eqb_refl; eauto |].
    rewrite set_other by auto. apply thread_other; [cbn; apply Z.eqb_neq; auto | apply (v_ph _ _ _ V)].
  - intros u. destruct (Z.eq_dec u t) as [-> | N]; [rewrite set_same; split; [discriminate | intros (j & X); discriminate] |].
    rewrite set_other by auto. rewrite <- (v_ho _ _ _ V). split; congruence.
  - intros j. rewrite (v_cv _ _ _ V). split; intros (u & X); exists u; destruct (Z.eq_dec u t) as [-> | N]; try (rewrite set_same in *); try (rewrite set_other in * by auto); congruence.
  - intros u. destruct (Z.eq_dec u t) as [-> | N]; [intros _; apply (v_ra _ _ _ V); congruence |]. rewrite set_other by auto. apply (v_ra _ _ _ V).
  - intros j x. rewrite offer_other; [apply (v_ta _ _ _ V) | discriminate | | discriminate].
    intros u y z X W. inversion X; subst. apply (waits_iff e s g u j V) in W. congruence.
  - apply (v_tc _ _ _ V).
  - apply stuck_other; auto. apply (v_st _ _ _ V).
  - intros [X | X]; [discriminate | now apply (v_no _ _ _ V)].
  - apply (v_al _ _ _ V).
Qed.

Lemma conf_inv e s g t r db : inv e s g -> inv e (fst (conf e s t r db)) (rev (snd (conf e s t r db)) ++ g).
Proof.
  intros V. unfold conf. destruct (ph s t) as [ | i | i | i] eqn:E; cbn [fst snd rev app]; try (apply inv_quiet; auto; discriminate).
  destruct (stuck s) as [k | ] eqn:S; cbn [fst snd rev app]; try (apply inv_quiet; auto; discriminate).
  destruct db; cbn [negb]; [| now apply finish_inv with i]. destruct (pricing e && is_accepted r); [| now apply finish_inv with i].
  assert (H : holder s = Some t) by (apply (v_ho _ _ _ V); eauto). cbn [fst snd rev app].
  constructor; cbn [ph holder cvs tariffs stuck dead].
  - intros u. destruct (Z.eq_dec u t) as [-> | N]; [rewrite set_same; cbn; unfold waits, last_of; cbn; now rewrite Z.eqb_refl |].
    rewrite set_other by auto. apply thread_other; [cbn; apply Z.eqb_neq; auto | apply (v_ph _ _ _ V)].
  - intros u. destruct (Z.eq_dec u t) as [-> | N]; [rewrite set_same; split; [discriminate | intros (j & X); discriminate] |].
    rewrite set_other by auto. rewrite <- (v_ho _ _ _ V). split; congruence.
  - intros j. destruct (Z.eq_dec j i) as [-> | N]; [rewrite set_same; split; auto; intros _; exists t; apply set_same |].
    rewrite set_other by auto. rewrite (v_cv _ _ _ V). split; intros (u & X); exists u; destruct (Z.eq_dec u t) as [-> | M]; try (rewrite set_same in *); try (rewrite set_other in * by auto); congruence.
  - intros u. destruct (Z.eq_dec u t) as [-> | N]; [intros _; apply (v_ra _ _ _ V); congruence |]. rewrite set_other by auto. apply (v_ra _ _ _ V).
  - intros j x. rewrite offer_other; [apply (v_ta _ _ _ V) | discriminate | discriminate | discriminate].
  - intros j x X. destruct (Z.eq_dec j i) as [-> | N]; [apply set_same |]. rewrite set_other by auto. now apply (v_tc _ _ _ V) with x.
  - pose proof (v_st _ _ _ V) as X. rewrite S in X. now apply (stuck_other g (OWaits t i) None).
  - intros [X | X]; [discriminate | now apply (v_no _ _ _ V)].
  - apply (v_al _ _ _ V).
Qed.

Lemma fails_inv e s g t w : inv e s g -> inv e (fst (fails e s t w)) (rev (snd (fails e s t w)) ++ g).
Proof.
  intros V. unfold fails. destruct (ph s t) as [ | i | i | i] eqn:E; cbn [fst snd rev app]; try (apply inv_quiet; auto; discriminate).
  destruct w; try (now apply finish_inv with i). destruct (stuck s); try (now apply finish_inv with i). cbn. apply inv_quiet; auto; discriminate.
Qed.

Lemma others_iff e s g t i : inv e s g -> others e s t i = true <-> exists u, u <> t /\ waits g u i.
Proof.
  intros V. unfold others. rewrite existsb_exists. split.
  - intros (u & _ & X). apply andb_true_iff in X. destruct X as (A & B). exists u. split; [apply negb_true_iff, Z.eqb_neq in A; auto |].
    apply (waits_iff e s g u i V). destruct (ph s u); try discriminate. apply Z.eqb_eq in B. congruence.
  - intros (u & N & W). apply (waits_iff e s g u i V) in W. exists u. split.
    + assert (R := v_ra _ _ _ V u). rewrite W in R. specialize (R ltac:(discriminate)). apply in_map_iff. exists (Z.to_nat u). split; [lia |]. apply in_seq. lia.
    + rewrite W, Z.eqb_refl, (proj2 (Z.eqb_neq _ _) N). reflexivity.
Qed.

Lemma wake_inv e s g t b : inv e s g -> dead (fst (wake e s t b)) = false -> inv e (fst (wake e s t b)) (rev (snd (wake e s t b)) ++ g).
Proof.
  intros V. unfold wake. destruct (ph s t) as [ | i | i | i] eqn:E; cbn [fst snd rev app]; intros AL; try (apply inv_quiet; auto; discriminate).
  destruct (holder s) as [u | ] eqn:H; cbn [fst snd rev app]; try (apply inv_quiet; auto; discriminate).
  destruct (match tariffs s i with Some x => Some (User x) | None => if b then Some Default else None end) as [r | ] eqn:R; cbn [fst snd rev app]; try (apply inv_quiet; auto; discriminate).
  destruct (others e s t i) eqn:O; [discriminate |].
  assert (NO : forall u, u <> t -> ph s u <> Waiting i).
  { intros u N X. assert (others e s t i = true); [| congruence]. apply (others_iff e s g t i V). exists u. split; auto. now apply (waits_iff e s g u i V). }
  cbn [fst snd rev app]. constructor; cbn [ph holder cvs tariffs stuck dead].
  - intros u. destruct (Z.eq_dec u t) as [-> | N]; [rewrite set_same; cbn; right; unfold last_of; cbn; rewrite Z.eqb_refl; eauto |].
    rewrite set_other by auto. apply thread_other; [cbn; apply Z.eqb_neq; auto | apply (v_ph _ _ _ V)].
  - intros u. destruct (Z.eq_dec u t) as [-> | N]; [rewrite set_same; split; [discriminate | intros (j & X); discriminate] |].
    rewrite set_other by auto. rewrite <- (v_ho _ _ _ V). split; congruence.
  - intros j. destruct (Z.eq_dec j i) as [-> | N].
    + rewrite set_same. split; [discriminate |]. intros (u & X). destruct (Z.eq_dec u t) as [-> | M]; [rewrite set_same in X; discriminate |]. rewrite set_other in X by auto. now apply NO in X.
    + rewrite set_other by auto. rewrite (v_cv _ _ _ V). split; intros (u & X); exists u; destruct (Z.eq_dec u t) as [-> | M]; try (rewrite set_same in *); try (rewrite set_other in * by auto); congruence.
  - intros u. destruct (Z.eq_dec u t) as [-> | N]; [intros _; apply (v_ra _ _ _ V); congruence |]. rewrite set_other by auto. apply (v_ra _ _ _ V).
  - intros j x. destruct (Z.eq_dec j i) as [-> | N].
    + rewrite set_same. split; [discriminate |]. intros X. inversion X; subst. exfalso. match goal with Y : forall _ _ _, _ = _ -> ~ _ |- _ => apply (Y t Accepted r eq_refl) end. now apply (waits_iff e s g t i V).
    + rewrite set_other by auto. rewrite offer_other; [apply (v_ta _ _ _ V) | discriminate | | discriminate].
      intros u y z X W. inversion X; subst. apply (waits_iff e s g u j V) in W. congruence.
  - intros j x. destruct (Z.eq_dec j i) as [-> | N]; [rewrite set_same; discriminate | rewrite !set_other by auto; apply (v_tc _ _ _ V)].
  - apply stuck_other; auto. apply (v_st _ _ _ V).
  - intros [X | X]; [discriminate | now apply (v_no _ _ _ V)].
  - apply (v_al _ _ _ V).
Qed.

Lemma deliver_inv e s g i x a : inv e s g -> inv e (fst (deliver s i x a)) (rev (snd (deliver s i x a)) ++ g).
Proof.
  intros V. unfold deliver. cbn [fst snd rev app]. apply inv_quiet; auto; try discriminate.
  constructor; cbn [ph holder cvs tariffs stuck dead]; try apply V.
  - intros j y. destruct (Z.eq_dec j i) as [-> | N].
    + destruct (cvs s i) eqn:C.
      * rewrite set_same. apply (v_cv _ _ _ V) in C. destruct C as (t & W). apply (waits_iff e s g t i V) in W. split; [intros X; inversion X; subst; now apply of_now with t |].
        intros X. inversion X; subst; auto. exfalso. match goal with Y : forall _, OTariff _ _ <> _ |- _ => now apply (Y x) end.
      * assert (NT : forall y, tariffs s i <> Some y) by (intros z X; apply (v_tc _ _ _ V) in X; congruence). split; [intros X; now apply NT in X |].
        intros X. inversion X; subst; [| exfalso; match goal with Y : forall _, OTariff _ _ <> _ |- _ => now apply (Y x) end].
        match goal with Y : waits _ _ _ |- _ => apply (waits_iff e s g _ i V) in Y; assert (cvs s i = true) by (apply (v_cv _ _ _ V); eauto); congruence end.
    + rewrite offer_other; [| discriminate | discriminate | congruence]. rewrite <- (v_ta _ _ _ V). destruct (cvs s i); [now rewrite set_other | reflexivity].
  - intros j y. destruct (cvs s i) eqn:C; [| apply (v_tc _ _ _ V)]. destruct (Z.eq_dec j i) as [-> | N]; [auto | rewrite set_other by auto; apply (v_tc _ _ _ V)].
  - intros j y X. unfold blocked in X. cbn in X. discriminate.
  - intros [X | X]; [discriminate | now apply (v_no _ _ _ V)].
Qed.

Lemma price_inv e s g m act sto a : inv e s g -> inv e (fst (set_user_price e s m act sto a)) (rev (snd (set_user_price e s m act sto a)) ++ g).
Proof.
  intros V. unfold set_user_price. destruct (stuck s) as [k | ] eqn:S; [apply inv_quiet; auto; discriminate |].
  destruct m as [m | ]; [| apply inv_quiet; auto; discriminate]. destruct (callback e); cbn [negb]; [| apply inv_quiet; auto; discriminate].
  destruct m as [ | i text extra]; [apply inv_quiet; auto; discriminate |]. destruct (make _ _ _ _ _ _) as [x | ]; [| apply inv_quiet; auto; discriminate].
  destruct (holder s) as [u | ] eqn:H; [| now apply deliver_inv].
  cbn [fst snd rev app]. constructor; cbn [ph holder cvs tariffs stuck dead]; try apply V.
  - rewrite <- H. apply (v_ho _ _ _ V).
  - intros j y. rewrite offer_other; [apply (v_ta _ _ _ V) | discriminate | discriminate | discriminate].
  - unfold blocked. reflexivity.
  - intros [X | X]; [discriminate | now apply (v_no _ _ _ V)].
Qed.

Lemma go_inv e s g : inv e s g -> inv e (fst (go s)) (rev (snd (go s)) ++ g).
Proof.
  intros V. unfold go. destruct (stuck s) as [((i, x), a) | ]; [| apply inv_quiet; auto; discriminate]. destruct (holder s); [apply inv_quiet; auto; discriminate |]. now apply deliver_inv.
Qed.

Lemma happened_inv e s g : happened e s g -> dead s = false -> inv e s g.
Proof.
  induction 1 as [ | s g o H IH].
  - intros _. constructor; cbn; auto; try discriminate; try (intros; split; [discriminate | intros (? & X); discriminate]).
    + intros; congruence.
    + intros i x. split; [discriminate | intros X; inversion X].
  - intros AL. assert (A : dead s = false) by (destruct (dead s) eqn:D; auto; unfold step in AL; rewrite D in AL; cbn in AL; congruence).
    specialize (IH A). unfold step in *. rewrite A in *. destruct o as [t i | t | t r db | t w | t b | m act sto a | ].
    + destruct ((1 <=? t) && (t <=? Z.of_nat (threads e))) eqn:B; [apply begin_inv; auto; lia | apply inv_quiet; auto; discriminate].
    + now apply lock_inv.
    + now apply conf_inv.
    + now apply fails_inv.
    + now apply wake_inv.
    + now apply price_inv.
    + now apply go_inv.
Qed.
