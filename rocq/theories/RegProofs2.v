(** Proofs for the registration of an OCPP 2.x station, part 2: histories. *)
From Coq Require Import String ZArith NArith List Bool Lia.
From Verif Require Import RegModel RegSpec RegProofs.
Import ListNotations.
Local Open Scope Z_scope.

Lemma step_dead c o s : dead s = true -> step c o s = (s, []).
Proof. intros D. unfold step. now rewrite D. Qed.
Lemma run_dead h s : dead s = true -> run h s = s.
Proof. intros D. induction h as [ | [c o] h IH ]; auto. cbn [run]. now rewrite step_dead. Qed.
Lemma fold_inv_q {A} (Q : cfg * op -> Prop) (R : st -> A -> Prop) (f : A -> cfg * op * list out -> A) :
  (forall c o s a, Q (c, o) -> R s a -> R (fst (step c o s)) (f a (c, o, snd (step c o s)))) ->
  forall h s a, Forall Q h -> R s a -> R (run h s) (fold_left f (events h s) a).
Proof.
  intros H. induction h as [ | [c o] h IH ]; intros s a F X; auto. inversion F as [ | x y F1 F2 ]; subst. cbn [run events]. specialize (H c o s a F1 X). destruct (step c o s) as [s1 l]. cbn [fst snd fold_left] in *. auto.
Qed.
Lemma fold_fst {A} (f : A -> cfg * op -> A) h s a : fold_left (fun a e => f a (fst e)) (events h s) a = fold_left f h a.
Proof. revert s a. induction h as [ | [c o] h IH ]; intros s a; auto. cbn [events fold_left]. destruct (step c o s) as [s1 l]. cbn [fold_left fst]. auto. Qed.

(** What a call other than the answer to a BootNotification.req leaves. *)
Lemma connected_state c now s : dead s = false -> exists f,
  fst (step c (Connected now) s) =
    if reg_eqb (registered s) Accepted && negb (lost s =? 0) then set_lost 0 (set_checks true (set_reported f (set_connected true s)))
    else set_lost 0 (set_connected true s).
Proof.
  intros D. unfold step. rewrite D. cbn [registered set_connected]. destruct (reg_eqb (registered s) Accepted); [ | exists (reported s); reflexivity ]. cbn [lost set_connected andb]. destruct (lost s =? 0); cbn [negb]; [ exists (reported s); reflexivity | ].
  destruct (notify_all_state (negb (second * c_threshold c <? now - lost s)) (c_connectors c) (set_connected true s)) as [f F]. destruct (notify_all _ _ _) as [s1 o1]. cbn [fst] in *. subst s1. now exists f.
Qed.
Lemma changed_state c k v s : dead s = false -> exists f, fst (step c (Changed k v) s) = set_reported f (set_status (upd (status s) k v) s).
Proof.
  intros D. unfold step. rewrite D. destruct (notify_cases true k (set_status (upd (status s) k v) s)) as [ -> | [f ->] ]; cbn [fst]. - now exists (reported s). - now exists f.
Qed.
Lemma errored_state c s : dead s = false -> fst (step c Errored s) = boot_failed c s.
Proof. intros D. unfold step. rewrite D. apply stray. Qed.
Lemma boot_failed_fields c s : exists l, boot_failed c s = set_boots l s /\ (c_queue_all c = false -> boots s <> [] -> l <> []) /\ (List.length l <= List.length (boots s))%nat.
Proof.
  unfold boot_failed. destruct (boots s) as [ | n l ] eqn:B. { exists []. split; [ | split; auto ]. destruct s; cbn in *; subst; reflexivity. }
  destruct (c_queue_all c && (c_attempts c <=? n + 1)) eqn:Q; cbn [List.length].
  - exists l. repeat split; auto. intros C. rewrite C in Q. discriminate.
  - exists (n + 1 :: l). repeat split; [ discriminate | cbn; lia ].
Qed.
Ltac simple_step D := unfold step; rewrite D; cbn -[dispatch notify_all].

(** *** Registration *)
Lemma registered_step c o s : registered (fst (step c o s)) = said1 (registered s) (c, o, snd (step c o s)).
Proof.
  destruct (dead s) eqn:D. { rewrite step_dead; auto. unfold said1, heard. cbn [fst snd]. destruct o; auto. }
  destruct o as [ reason | | | r i | | | m | b | v | now | now | k v ].
  - now simple_step D. - now simple_step D.
  - unfold step. rewrite D. destruct (retry s); reflexivity.
  - unfold step. rewrite D. unfold said1. destruct (boots s) as [ | b l ] eqn:B.
    + unfold confirm. rewrite B. rewrite stray_heard. destruct (stray (c_parts c) Result s) as [ -> _ ]. reflexivity.
    + destruct (confirm_cases c r i s b l D B) as [ (R & ->) | [ (R & _ & _ & ->) | (R & _ & o1 & o2 & f & _ & _ & ->) ] ]; subst; cbn [fst snd heard]; try reflexivity. destruct (thread s); reflexivity.
  - unfold step. rewrite D. destruct (boot_failed_fields c s) as (l & E & _). cbn [fst]. rewrite E. reflexivity.
  - rewrite errored_state; auto. destruct (boot_failed_fields c s) as (l & E & _). rewrite E. reflexivity.
  - assert (C := dispatch_calm (c_parts c) m s D). unfold step. rewrite D. unfold said1, heard. destruct C as [ -> | [ ( -> & _ ) | ( -> & _ ) ] ]; reflexivity.
  - now simple_step D.
  - unfold step. rewrite D. cbn [fst]. destruct (reg_eqb (registered s) Accepted); reflexivity.
  - destruct (connected_state c now s D) as [f ->]. destruct (_ && _); reflexivity.
  - unfold step. rewrite D. cbn [fst]. destruct (negb _); reflexivity.
  - destruct (changed_state c k v s D) as [f ->]. reflexivity.
Qed.
Lemma registration h v : registered (run h (initial v)) = said (events h (initial v)).
Proof. unfold said. apply (fold_inv (fun s a => registered s = a) said1); auto. intros c o s a <-. apply registered_step. Qed.

(** *** Staying dead, and dying *)
Lemma dead_stays c o s : dead s = true -> dead (fst (step c o s)) = true.
Proof. intros D. now rewrite step_dead. Qed.

(** *** BootNotification.reqs *)
Definition booting (s : st) (a : bool) : Prop :=
  dead s = false -> started s = a /\ (started s = true -> registered s <> Accepted -> boots s <> [] \/ retry s <> None).
Lemma booting_step c o s a : c_queue_all c = false -> booting s a -> booting (fst (step c o s)) (on1 a (c, o)).
Proof.
  intros Q X. destruct (dead s) eqn:D. { intros E. rewrite step_dead in E by exact D. cbn [fst] in E. congruence. }
  destruct (X D) as [S B]. clear X. intros ND. unfold on1. cbn [snd].
  destruct o as [ reason | | | r i | | | m | b | v | now | now | k v ].
  - simple_step D. split; auto. intros _ _. left. discriminate.
  - simple_step D. split; auto. discriminate.
  - unfold step. rewrite D. destruct (retry s) eqn:RT. + split; auto. intros _ _. left. discriminate. + cbn [fst]. rewrite ?RT in *. split; assumption.
  - unfold step in *. rewrite D in *. destruct (boots s) as [ | b l ] eqn:E.
    + unfold confirm. rewrite E. destruct (stray (c_parts c) Result s) as [ -> _ ]. rewrite E. auto.
    + destruct (confirm_cases c r i s b l D E) as [ (R & ->) | [ (R & _ & _ & ->) | (R & _ & o1 & o2 & f & _ & _ & ->) ] ]; subst; cbn [fst snd heard].
      * split; [ reflexivity | intros _ _; right; discriminate ].
      * split; [ reflexivity | intros _ C; now destruct C ].
      * destruct (thread s); (split; [ reflexivity | intros _ C; now destruct C ]).
  - unfold step. rewrite D. destruct (boot_failed_fields c s) as (l & E & N & _). cbn [fst]. rewrite E. split; auto. intros S' R'. destruct (B S' R'); auto.
  - rewrite errored_state; auto. destruct (boot_failed_fields c s) as (l & E & N & _). rewrite E. split; auto. intros S' R'. destruct (B S' R'); auto.
  - assert (C := dispatch_calm (c_parts c) m s D). unfold step. rewrite D. destruct C as [ -> | [ ( -> & _ ) | ( -> & _ ) ] ]; auto. split; auto. intros _ _. left. discriminate.
  - now simple_step D.
  - unfold step. rewrite D. cbn [fst]. destruct (reg_eqb (registered s) Accepted); auto.
  - destruct (connected_state c now s D) as [f ->]. destruct (_ && _); auto.
  - unfold step. rewrite D. cbn [fst]. destruct (negb _); auto.
  - destruct (changed_state c k v s D) as [f ->]. auto.
Qed.
Lemma keeps_booting h v : Forall (fun e => c_queue_all (fst e) = false) h -> booting (run h (initial v)) (on h).
Proof.
  intros F. unfold on. rewrite <- (fold_fst on1 h (initial v) false).
  apply (fold_inv_q (fun e => c_queue_all (fst e) = false) booting (fun a e => on1 a (fst e))); auto.
  - intros c o s a Q X. now apply booting_step. - intros _. split; [ reflexivity | discriminate ].
Qed.

(** *** Heartbeats *)
Lemma taken_stray c r i p s : taken (c, Confirmed r i, snd (dispatch p (Message Result "InternalError" Silent (inl false)) s)) = false.
Proof. destruct r; cbn [taken]; auto. unfold dispatch. destruct (registered s); reflexivity. Qed.
Lemma existsb_confirmed l o1 r : existsb (fun o => match o with OConfirmed => true | _ => false end) (OGiven Provisioning :: o1 ++ OConfirmed :: l ++ r) = true.
Proof. cbn [existsb orb]. rewrite existsb_app. cbn [existsb orb]. apply orb_true_r. Qed.
Definition beating (s : st) (a : reg * option Z) : Prop := dead s = false -> fst a = registered s /\ snd a = heartbeat s.
Lemma beating_step c o s a : beating s a -> beating (fst (step c o s)) (beat1 a (c, o, snd (step c o s))).
Proof.
  intros X. destruct (dead s) eqn:D. { intros E. rewrite step_dead in E by exact D. cbn [fst] in E. congruence. }
  destruct (X D) as [R B]. clear X. intros ND. split. { unfold beat1. cbn [fst]. rewrite registered_step. now rewrite R. }
  unfold beat1. cbn [snd].
  destruct o as [ reason | | | r i | | | m | b | v | now | now | k v ].
  - now simple_step D. - now simple_step D.
  - unfold step. rewrite D. destruct (retry s); cbn; auto.
  - unfold step in *. rewrite D in *. destruct (boots s) as [ | b l ] eqn:E.
    + unfold confirm. rewrite E. rewrite taken_stray. destruct (stray (c_parts c) Result s) as [ -> _ ]. auto.
    + destruct (confirm_cases c r i s b l D E) as [ (Q & ->) | [ (Q & _ & _ & ->) | (Q & _ & o1 & o2 & f & _ & _ & ->) ] ]; subst; cbn [fst snd taken].
      * destruct r; try congruence; auto. * auto.
      * rewrite existsb_confirmed. cbn [andb]. destruct (thread s); cbn; destruct (0 <? i); auto.
  - unfold step. rewrite D. destruct (boot_failed_fields c s) as (l & E & _). cbn [fst]. rewrite E. auto.
  - rewrite errored_state; auto. destruct (boot_failed_fields c s) as (l & E & _). rewrite E. auto.
  - assert (C := dispatch_calm (c_parts c) m s D). unfold step. rewrite D. destruct C as [ -> | [ ( -> & _ ) | ( -> & _ ) ] ]; auto.
  - now simple_step D.
  - unfold step. rewrite D. cbn [fst]. rewrite R. destruct (registered s); auto.
  - destruct (connected_state c now s D) as [f ->]. destruct (_ && _); auto.
  - unfold step. rewrite D. cbn [fst]. destruct (negb _); auto.
  - destruct (changed_state c k v s D) as [f ->]. auto.
Qed.
Lemma heartbeats h v : dead (run h (initial v)) = false -> heartbeat (run h (initial v)) = beat (events h (initial v)).
Proof.
  intros D. unfold beat. symmetry. refine (proj2 (fold_inv beating beat1 _ h (initial v) (Rejected, None) _ D)). - intros. now apply beating_step. - intros _. split; reflexivity.
Qed.

(** *** The end of the process *)
Definition counted (s : st) (n : nat) : Prop := (dead s = true -> n = 2%nat) /\ (dead s = false -> n = if thread s then 1%nat else 0%nat).
Lemma counted_step c o s n : tame (c, o) -> counted s n -> counted (fst (step c o s)) (twice1 n (c, o, snd (step c o s))).
Proof.
  intros Q [X1 X2]. destruct (dead s) eqn:D. { rewrite step_dead; auto. rewrite (X1 eq_refl). cbn. split; [ auto | congruence ]. }
  specialize (X2 eq_refl). clear X1. assert (N : n <> 2%nat) by (destruct (thread s); lia).
  assert (T : forall t, twice1 n (c, o, t) = match o with Stop => 0%nat | _ => if taken (c, o, t) then S n else n end).
  { intros t. unfold twice1. destruct n as [ | [ | [ | n ]]]; try congruence; destruct o; reflexivity. }
  rewrite T. clear T.
  assert (K : forall s', dead s' = dead s -> thread s' = thread s -> counted s' n). { intros s' E F. unfold counted. rewrite E, F, D. split; [ discriminate | auto ]. }
  destruct o as [ reason | | | r i | | | m | b | v | now | now | k v ]; cbn [taken].
  - simple_step D. now apply K.
  - simple_step D. unfold counted. cbn. rewrite D. split; [ discriminate | auto ].
  - unfold step. rewrite D. destruct (retry s); cbn; now apply K.
  - unfold step. rewrite D. destruct (boots s) as [ | b l ] eqn:E.
    + unfold confirm. rewrite E. assert (W := taken_stray c r i (c_parts c) s). cbn [taken] in W. rewrite W. destruct (stray (c_parts c) Result s) as [ -> _ ]. now apply K.
    + destruct (confirm_cases c r i s b l D E) as [ (R & ->) | [ (R & _ & _ & ->) | (R & _ & o1 & o2 & f & _ & _ & ->) ] ]; subst; cbn [fst snd].
      * destruct r; try congruence; now apply K.
      * now apply K.
      * rewrite existsb_confirmed. destruct (thread s); unfold counted; cbn; rewrite ?D; (split; [ discriminate || auto | congruence || auto ]).
  - unfold step. rewrite D. destruct (boot_failed_fields c s) as (l & E & _). cbn [fst]. rewrite E. now apply K.
  - rewrite errored_state; auto. destruct (boot_failed_fields c s) as (l & E & _). rewrite E. now apply K.
  - assert (C := dispatch_calm (c_parts c) m s D). unfold step. rewrite D. unfold tame in Q. cbn [snd] in Q. destruct Q as [Q1 Q2]. destruct C as [ -> | [ ( -> & a & [ C | C ] ) | ( -> & _ ) ] ]; [ now apply K | now apply Q1 in C | now apply Q2 in C | now apply K ].
  - simple_step D. now apply K.
  - unfold step. rewrite D. cbn [fst]. destruct (reg_eqb (registered s) Accepted); now apply K.
  - destruct (connected_state c now s D) as [f ->]. destruct (_ && _); now apply K.
  - unfold step. rewrite D. cbn [fst]. destruct (negb _); now apply K.
  - destruct (changed_state c k v s D) as [f ->]. now apply K.
Qed.
Lemma crashes h v : Forall tame h -> dead (run h (initial v)) = twice (events h (initial v)).
Proof.
  intros F. assert (C := fold_inv_q tame counted twice1 counted_step h (initial v) 0%nat F). destruct C as [C1 C2]. { split; [ discriminate | auto ]. }
  unfold twice. destruct (dead (run h (initial v))). - now rewrite C1. - rewrite C2; auto. destruct (thread _); reflexivity.
Qed.
(** If no BootNotification is asked for, there is one at a time. *)
Definition single (s : st) : Prop :=
  dead s = false /\ (List.length (boots s) + (if retry s then 1 else 0) <= 1)%nat /\ (thread s = true -> boots s = [] /\ retry s = None).
Lemma single_step c o s : tame (c, o) -> untriggered (c, o) -> no_start (c, o) -> single s -> single (fst (step c o s)).
Proof.
  intros T U NS (D & L & A). destruct o as [ reason | | | r i | | | m | b | v | now | now | k v ].
  - destruct NS.
  - simple_step D. unfold single. cbn. repeat split; auto; try discriminate. destruct (retry s); lia.
  - unfold step. rewrite D. destruct (retry s) eqn:E; cbn [fst]; [ | repeat split; auto; try rewrite E; auto; now apply A ]. unfold single, boot. cbn. split; [ auto | ]. split; [ lia | ]. intros H. apply A in H as [_ H]. discriminate.
  - unfold step. rewrite D. destruct (boots s) as [ | b l ] eqn:E.
    + unfold confirm. rewrite E. destruct (stray (c_parts c) Result s) as [ -> _ ]. unfold single. rewrite E. auto.
    + cbn [List.length] in L. assert (l = [] /\ retry s = None /\ thread s = false) as (-> & RN & TN).
      { split; [ destruct l; auto; cbn in L; lia | ]. split; [ destruct (retry s); auto; lia | ]. destruct (thread s); auto. destruct (A eq_refl); congruence. }
      destruct (confirm_cases c r i s b [] D E) as [ (R & ->) | [ (R & _ & _ & ->) | (R & _ & o1 & o2 & f & _ & _ & ->) ] ]; subst; cbn [fst snd]; rewrite ?TN; unfold single; cbn; rewrite ?RN, ?TN; repeat split; auto; discriminate.
  - unfold step. rewrite D. destruct (boot_failed_fields c s) as (l & E & _ & M). cbn [fst]. rewrite E. unfold single. cbn. repeat split; auto. + destruct (retry s); lia. + apply A in H as [H _]. rewrite H in M. destruct l; auto. cbn in M. lia. + now apply A in H as [_ H].
  - rewrite errored_state; auto. destruct (boot_failed_fields c s) as (l & E & _ & M). rewrite E. unfold single. cbn. repeat split; auto. + destruct (retry s); lia. + apply A in H as [H _]. rewrite H in M. destruct l; auto. cbn in M. lia. + now apply A in H as [_ H].
  - assert (C := dispatch_calm (c_parts c) m s D). unfold step. rewrite D. unfold tame in T. unfold untriggered in U. cbn [snd] in *. destruct T as [T1 T2]. destruct C as [ -> | [ ( -> & a & [ C | C ] ) | ( -> & _ & C & _ ) ] ]; [ exact (conj D (conj L A)) | now apply T1 in C | now apply T2 in C | now apply U in C ].
  - simple_step D. exact (conj D (conj L A)).
  - unfold step. rewrite D. cbn [fst]. destruct (reg_eqb (registered s) Accepted); exact (conj D (conj L A)).
  - destruct (connected_state c now s D) as [f ->]. destruct (_ && _); exact (conj D (conj L A)).
  - unfold step. rewrite D. cbn [fst]. destruct (negb _); exact (conj D (conj L A)).
  - destruct (changed_state c k v s D) as [f ->]. exact (conj D (conj L A)).
Qed.
Lemma stays_single h s : Forall (fun e => tame e /\ untriggered e /\ no_start e) h -> single s -> single (run h s).
Proof. revert s. induction h as [ | [c o] h IH ]; intros s F X; auto. inversion F as [ | x y (T & U & N) F2 ]; subst. cbn [run]. apply IH; auto. now apply single_step. Qed.
