(** Proofs about histories of signing requests. *)
From Coq Require Import ZArith String List Bool Lia.
From Verif Require Import SecModel SecSpec SecProofs.
Import ListNotations.
Local Open Scope Z_scope.

(** ** Traces *)

Lemma trace_cons : forall s x h, trace s (x :: h) = (snd x, snd (step s x)) :: trace (fst (step s x)) h.
Proof. intros s x h. cbn [trace]. destruct (step s x). reflexivity. Qed.
Lemma trace_app : forall h1 h2 s, trace s (h1 ++ h2) = trace s h1 ++ trace (state s h1) h2.
Proof.
  induction h1 as [|x h1 IH]; intros h2 s; [reflexivity|].
  change ((x :: h1) ++ h2) with (x :: (h1 ++ h2)). rewrite !trace_cons, IH. reflexivity.
Qed.
Lemma state_app : forall h1 h2 s, state s (h1 ++ h2) = state (state s h1) h2.
Proof. induction h1 as [|x h1 IH]; intros h2 s; [reflexivity|]. cbn. apply IH. Qed.
(** A trace taken apart. *)
Lemma trace_split : forall t1 t2 h s, trace s h = t1 ++ t2 ->
  exists h1 h2, h = h1 ++ h2 /\ t1 = trace s h1 /\ t2 = trace (state s h1) h2.
Proof.
  induction t1 as [|e t1 IH]; intros t2 h s H.
  - exists [], h. auto.
  - destruct h as [|x h]; [discriminate H|]. rewrite trace_cons in H. cbn [app] in H. inversion H; subst.
    destruct (IH _ _ _ H2) as (h1 & h2 & -> & -> & ->). exists (x :: h1), h2.
    repeat split. rewrite trace_cons. reflexivity.
Qed.
Lemma trace_split1 : forall e t2 h s, trace s h = e :: t2 ->
  exists x h2, h = x :: h2 /\ e = (snd x, snd (step s x)) /\ t2 = trace (fst (step s x)) h2.
Proof.
  intros e t2 h s H. destruct h as [|x h]; [discriminate H|]. rewrite trace_cons in H. inversion H; subst.
  exists x, h. auto.
Qed.

Lemma not_asks : forall e, asks_nothing e <-> ~ asks e.
Proof.
  intros e. split.
  - intros N (u & r & t & I). exact (N u r t I).
  - intros N u r t I. apply N. exists u, r, t. exact I.
Qed.
Lemma quiet_asks : forall o outs, quiet outs -> ~ asks (o, outs).
Proof. intros o outs [Q _] (u & r & t & I). exact (Q u r t I). Qed.
Lemma quiet_timer : forall o outs, quiet outs -> ~ sets_timer (o, outs).
Proof. intros o outs [_ Q] (b & I). exact (Q b I). Qed.
Lemma nil_asks : forall o, ~ asks (o, []).
Proof. intros o (u & r & t & []). Qed.

(** ** Only one request at a time *)

Lemma asks_waits : forall s x, asks (snd x, snd (step s x)) -> k_awaited (fst (step s x)) <> None.
Proof.
  intros s x A. destruct (step s x) as [s' outs] eqn:E. cbn [fst snd] in *.
  destruct (step_effect _ _ _ _ E) as [(_ & _ & ->)|(_ & F)]; [destruct (nil_asks _ A)|].
  inversion F; subst; try (destruct (nil_asks _ A); fail); try (exfalso; eapply quiet_asks; eauto; fail); try discriminate;
    destruct A as (u1 & r & t & I); destruct I as [I|[]]; discriminate I.
Qed.
Lemma waits_on : forall s x, k_awaited s <> None -> ~ settles (snd x, snd (step s x)) ->
  k_awaited (fst (step s x)) <> None.
Proof.
  intros s x A N. destruct (step s x) as [s' outs] eqn:E. cbn [fst snd] in *.
  destruct (step_effect _ _ _ _ E) as [(_ & -> & _)|(_ & F)]; [exact A|].
  destruct x as [c o]. cbn [fst snd] in *.
  inversion F; subst; cbn [k_awaited]; try exact A; try discriminate;
    try (exfalso; apply N; exact Logic.I; fail); try (destruct (A H0); fail).
  exfalso. apply N. cbn. intros (b & []).
Qed.
Lemma asks_alone : forall s x, k_awaited s <> None -> asks (snd x, snd (step s x)) -> by_timer (snd x, snd (step s x)).
Proof.
  intros s x A K. destruct (step s x) as [s' outs] eqn:E. cbn [fst snd] in *.
  destruct (step_effect _ _ _ _ E) as [(_ & _ & ->)|(_ & F)]; [destruct (nil_asks _ K)|].
  destruct x as [c o]. cbn [fst snd] in *.
  inversion F; subst; try (destruct (nil_asks _ K); fail); try (exfalso; eapply quiet_asks; eauto; fail);
    try (destruct (A H0); fail); try (eexists; reflexivity);
    destruct K as (u1 & r & t & I); destruct I as [I|[]]; discriminate I.
Qed.
Lemma waits_all : forall h s, k_awaited s <> None -> Forall (fun e => ~ settles e) (trace s h) -> k_awaited (state s h) <> None.
Proof.
  induction h as [|x h IH]; intros s A N; [exact A|]. rewrite trace_cons in N. inversion N; subst.
  cbn [state]. apply IH; [apply waits_on; assumption|assumption].
Qed.
Lemma settles_dec : forall e, settles e \/ ~ settles e.
Proof.
  intros [o outs]. unfold settles. cbn [fst]. destruct o as [| |[]| | | | | | |]; auto.
  unfold sets_timer. cbn [snd]. induction outs as [|x q IH]; [left; intros (b & [])|].
  destruct IH as [IH|IH].
  - destruct x; try (left; intros (b & [I|I]); [discriminate I|apply IH; exists b; exact I]).
    right. intros N. apply N. eexists. left. reflexivity.
  - right. intros N. apply IH. intros (b & I). apply N. exists b. right. exact I.
Qed.
Lemma settles_or : forall t, Exists settles t \/ Forall (fun e => ~ settles e) t.
Proof.
  induction t as [|e t IH]; [right; constructor|].
  destruct (settles_dec e) as [S|S]; [left; constructor; exact S|].
  destruct IH as [IH|IH]; [left; apply Exists_cons_tl; exact IH|right; constructor; assumption].
Qed.

Lemma one_at_a_time : forall s h t1 e1 t2 e2 t3, trace s h = t1 ++ e1 :: t2 ++ e2 :: t3 -> asks e1 -> asks e2 ->
  by_timer e2 \/ Exists settles t2.
Proof.
  intros s h t1 e1 t2 e2 t3 H A1 A2.
  destruct (trace_split _ _ _ _ H) as (h1 & h2 & -> & _ & H2). symmetry in H2.
  destruct (trace_split1 _ _ _ _ H2) as (x1 & h3 & -> & -> & H3). symmetry in H3.
  destruct (trace_split _ _ _ _ H3) as (h4 & h5 & -> & -> & H5). symmetry in H5.
  destruct (trace_split1 _ _ _ _ H5) as (x2 & h6 & -> & -> & _).
  destruct (settles_or (trace (fst (step (state s h1) x1)) h4)) as [S|S]; [right; exact S|].
  left. apply asks_alone; [|exact A2]. apply waits_all; [|exact S]. apply asks_waits. exact A1.
Qed.

(** ** The timer *)

Lemma state_snoc : forall h x s, state s (h ++ [x]) = fst (step (state s h) x).
Proof. intros h x s. rewrite state_app. reflexivity. Qed.
Lemma trace_snoc : forall h x s, trace s (h ++ [x]) = trace s h ++ [(snd x, snd (step (state s h) x))].
Proof. intros h x s. rewrite trace_app, trace_cons. reflexivity. Qed.

Lemma gone_timer : forall h s, (k_gone s = true -> k_timer s = None) -> k_gone (state s h) = true -> k_timer (state s h) = None.
Proof.
  induction h as [|x h IH]; intros s D; [exact D|]. cbn [state]. apply IH.
  destruct (step s x) as [s' outs] eqn:E. cbn [fst].
  destruct (step_effect _ _ _ _ E) as [(_ & -> & _)|(G & F)]; [exact D|].
  inversion F; subst; cbn; auto; intros Q; congruence.
Qed.

Lemma timer_set : forall h cb b, k_timer (state (init cb) h) = Some b ->
  exists t1 e t2, trace (init cb) h = t1 ++ e :: t2 /\ In (OTimer b) (snd e) /\ Forall (fun e => ~ clears_timer e) t2.
Proof.
  induction h as [|x h IH] using rev_ind; intros cb b R; [discriminate R|].
  rewrite state_snoc in R. rewrite trace_snoc.
  destruct (step (state (init cb) h) x) as [s' outs] eqn:E. cbn [fst snd] in *.
  assert (K : k_timer (state (init cb) h) = Some b -> ~ clears_timer (snd x, outs) ->
              exists t1 e t2, trace (init cb) h ++ [(snd x, outs)] = t1 ++ e :: t2 /\ In (OTimer b) (snd e) /\ Forall (fun e => ~ clears_timer e) t2).
  { intros S N. destruct (IH cb b S) as (t1 & e & t2 & -> & I & F). exists t1, e, (t2 ++ [(snd x, outs)]).
    rewrite <- app_assoc. split; [reflexivity|]. split; [exact I|]. apply Forall_app. split; [exact F|]. constructor; auto. }
  destruct (step_effect _ _ _ _ E) as [(G & -> & ->)|(_ & F)].
  - rewrite (gone_timer h (init cb)) in R; [discriminate R|intros Q; discriminate Q|exact G].
  - destruct x as [c o]. cbn [fst snd] in *.
    inversion F; subst; cbn [k_timer] in R; try discriminate R;
      try (apply K; [exact R|cbn; tauto]; fail);
      try (apply K; [exact R|destruct o; cbn; try tauto; cbn in H; try tauto; congruence]; fail).
    exists (trace (init cb) h), (Conf true, [OTimer (backoff w (k_attempt (state (init cb) h)))]), [].
    split; [reflexivity|]. split; [|constructor]. inversion R. left. reflexivity.
Qed.

(** The timer makes a request only if it was set and not stopped since. *)
Lemma repeat_needs_timer : forall s x, by_timer (snd x, snd (step s x)) -> asks (snd x, snd (step s x)) -> exists b, k_timer s = Some b.
Proof.
  intros s x (csr & T) A. destruct (step s x) as [s' outs] eqn:E. destruct x as [c o]. cbn [fst snd] in *. subst o.
  destruct (step_effect _ _ _ _ E) as [(_ & _ & ->)|(_ & F)]; [destruct (nil_asks _ A)|].
  cbn [fst snd] in F. inversion F; subst; try contradiction; eauto; try (destruct (nil_asks _ A)); exfalso; eapply quiet_asks; eauto.
Qed.

Lemma repeat_after_timer : forall cb h t1 e t2, trace (init cb) h = t1 ++ e :: t2 -> by_timer e -> asks e ->
  exists u1 e1 u2, t1 = u1 ++ e1 :: u2 /\ sets_timer e1 /\ Forall (fun e => ~ clears_timer e) u2.
Proof.
  intros cb h t1 e t2 H T A.
  destruct (trace_split _ _ _ _ H) as (h1 & h2 & -> & -> & H2). symmetry in H2.
  destruct (trace_split1 _ _ _ _ H2) as (x1 & h3 & -> & -> & _).
  destruct (repeat_needs_timer _ _ T A) as (b & S).
  destruct (timer_set _ _ _ S) as (u1 & e1 & u2 & -> & I & F).
  exists u1, e1, u2. split; [reflexivity|]. split; [exists b; exact I|exact F].
Qed.

(** ** How often a request is repeated *)

(** The requests that can still be repeated. *)
Definition left_over (n : Z) (s : st) : nat :=
  match k_awaited s with None => O | Some _ => Z.to_nat (n + 1 - k_attempt s) end.
Definition within (n : Z) (s : st) : Prop := 1 <= k_attempt s /\ (k_timer s <> None -> k_attempt s <= n).
Definition repeats_at_most (n : Z) (x : config * op) : Prop :=
  match g_repeat (fst x) with Some m => m <= n | None => True end.
Definition fresh (e : entry) : Prop := asks e /\ ~ by_timer e.

Lemma quiet_requests : forall outs, (forall u r t, ~ In (OSign u r t) outs) -> filter is_sign outs = [].
Proof.
  induction outs as [|x q IH]; intros Q; [reflexivity|]. cbn. destruct x; cbn;
    try (apply IH; intros u' r' t' I; exact (Q u' r' t' (or_intror I)); fail).
  exfalso. exact (Q u csr triggered (or_introl eq_refl)).
Qed.

Lemma step_bound : forall n s x, within n s -> repeats_at_most n x ->
  within n (fst (step s x)) /\
  (~ fresh (snd x, snd (step s x)) ->
   (List.length (filter is_sign (snd (step s x))) + left_over n (fst (step s x)) <= left_over n s)%nat).
Proof.
  intros n s x [A T] M. destruct (step s x) as [s' outs] eqn:E. destruct x as [c o]. cbn [fst snd] in *.
  destruct (step_effect _ _ _ _ E) as [(_ & -> & ->)|(_ & F)]; [split; [split; assumption|cbn; lia]|].
  cbn [fst snd] in F. unfold within, left_over, repeats_at_most in *. cbn [fst] in M.
  inversion F; subst; cbn [k_awaited k_attempt k_timer].
  - split; [split; assumption|]. intros _. rewrite (quiet_requests _ (proj1 H0)). cbn. lia.
  - split; [split; assumption|]. intros N. exfalso. apply N. split.
    + exists (asked_for u), r, triggered. cbn. auto.
    + intros (csr & Q). cbn in Q. subst o. destruct H.
  - split; [split; assumption|]. cbn. lia.
  - split; [split; assumption|]. cbn. lia.
  - split; [split; assumption|]. rewrite H0. cbn. lia.
  - split; [split; [assumption|intros _; rewrite H2 in M; lia]|]. rewrite H0. cbn. lia.
  - split; [split; [lia|intros Q; destruct (Q eq_refl)]|]. cbn. lia.
  - split; [split; [lia|intros Q; specialize (T Q); lia]|]. cbn. lia.
  - split; [split; assumption|]. cbn. lia.
  - split; [split; [lia|intros Q; destruct (Q eq_refl)]|]. cbn. lia.
  - split; [split; [lia|intros Q; destruct (Q eq_refl)]|]. intros _. rewrite (quiet_requests _ (proj1 H1)). cbn. lia.
  - assert (k_attempt s <= n) by (apply T; rewrite H; discriminate).
    split; [split; [lia|intros Q; destruct (Q eq_refl)]|]. intros _. rewrite H0. cbn. lia.
  - split; [split; [lia|intros Q; destruct (Q eq_refl)]|]. intros _. rewrite (quiet_requests _ (proj1 H)). cbn. lia.
  - split; [split; [assumption|intros Q; destruct (Q eq_refl)]|]. cbn. lia.
Qed.

Lemma within_all : forall n h s, within n s -> Forall (repeats_at_most n) h -> within n (state s h).
Proof.
  induction h as [|x h IH]; intros s W M; [exact W|]. inversion M; subst. cbn [state]. apply IH; [|assumption].
  apply step_bound; assumption.
Qed.
Lemma bound_all : forall n h s, within n s -> Forall (repeats_at_most n) h -> Forall (fun e => ~ fresh e) (trace s h) ->
  (requests (trace s h) <= left_over n s)%nat.
Proof.
  induction h as [|x h IH]; intros s W M N; [cbn; lia|]. inversion M; subst. rewrite trace_cons in *. inversion N; subst.
  destruct (step_bound n s x W H1) as [W1 B]. specialize (B H3). cbn [requests snd].
  specialize (IH _ W1 H2 H4). lia.
Qed.

Lemma repeats_bounded : forall n cb h t1 t2 t3, Forall (repeats_at_most n) h ->
  trace (init cb) h = t1 ++ t2 ++ t3 -> Forall (fun e => ~ fresh e) t2 ->
  Z.of_nat (requests t2) <= Z.max 0 n.
Proof.
  intros n cb h t1 t2 t3 M H N.
  destruct (trace_split _ _ _ _ H) as (h1 & h2 & -> & _ & H2). symmetry in H2.
  destruct (trace_split _ _ _ _ H2) as (h3 & h4 & -> & -> & _).
  apply Forall_app in M. destruct M as [M1 M]. apply Forall_app in M. destruct M as [M2 _].
  assert (W : within n (state (init cb) h1)).
  { apply within_all; [|exact M1]. split; [cbn; lia|]. intros Q. destruct (Q eq_refl). }
  pose proof (bound_all n h3 _ W M2 N) as B. unfold left_over in B.
  destruct W as [W _]. destruct (k_awaited (state (init cb) h1)); lia.
Qed.

(** ** How long the station waits *)

Lemma timer_entry : forall s x b, In (OTimer b) (snd (step s x)) ->
  snd x = Conf true /\ snd (step s x) = [OTimer b] /\ k_attempt (fst (step s x)) = k_attempt s /\
  exists w, g_wait (fst x) = Some w /\ b = backoff w (k_attempt s).
Proof.
  intros s x b I. destruct (step s x) as [s' outs] eqn:E. destruct x as [c o]. cbn [fst snd] in *.
  destruct (step_effect _ _ _ _ E) as [(_ & _ & ->)|(_ & F)]; [destruct I|]. cbn [fst snd] in F.
  inversion F; subst; try (destruct I; fail); try (exfalso; eapply (quiet_timer Stop); [eassumption|exists b; exact I]; fail);
    cbn in I; repeat (destruct I as [I|I]; [try discriminate I|]); try (destruct I; fail).
  inversion I; subst. repeat split. exists w. auto.
Qed.

(** The number of attempts is only changed by the answers of the CSMS, by a certificate and by the timer. *)
Definition keeps_attempt (e : entry) : Prop := match fst e with Conf _ | Signed _ _ _ | Fires _ => False | _ => True end.
Lemma attempt_kept : forall s x, keeps_attempt (snd x, snd (step s x)) -> k_attempt (fst (step s x)) = k_attempt s.
Proof.
  intros s x K. destruct (step s x) as [s' outs] eqn:E. destruct x as [c o]. cbn [fst snd] in *.
  destruct (step_effect _ _ _ _ E) as [(_ & -> & _)|(_ & F)]; [reflexivity|]. cbn [fst snd] in F.
  inversion F; subst; cbn in *; try reflexivity; destruct K.
Qed.
Lemma attempt_kept_all : forall h s, Forall keeps_attempt (trace s h) -> k_attempt (state s h) = k_attempt s.
Proof.
  induction h as [|x h IH]; intros s K; [reflexivity|]. rewrite trace_cons in K. inversion K; subst. cbn [state].
  rewrite (IH _ H2). apply attempt_kept. exact H1.
Qed.
Lemma repeat_counts : forall s x, by_timer (snd x, snd (step s x)) -> asks (snd x, snd (step s x)) ->
  k_attempt (fst (step s x)) = k_attempt s + 1.
Proof.
  intros s x (csr & T) A. destruct (step s x) as [s' outs] eqn:E. destruct x as [c o]. cbn [fst snd] in *. subst o.
  destruct (step_effect _ _ _ _ E) as [(_ & _ & ->)|(_ & F)]; [destruct (nil_asks _ A)|].
  cbn [fst snd] in F. inversion F; subst; try contradiction; try reflexivity; exfalso; eapply quiet_asks; eauto.
Qed.

Lemma backoff_double : forall w a, 1 <= a -> backoff w (a + 1) = Z.min int_max (2 * backoff w a).
Proof.
  intros w a A. unfold backoff. replace (2 ^ (a + 1)) with (2 * 2 ^ a) by (rewrite Z.pow_add_r by lia; lia).
  assert (0 < 2 ^ a) by (apply Z.pow_pos_nonneg; lia).
  set (m := Z.max 250 w). assert (250 <= m) by lia. set (p := 2 ^ a) in *.
  replace (m * (2 * p)) with (2 * (m * p)) by lia. assert (0 <= m * p) by nia. set (q := m * p) in *.
  unfold int_max. destruct (q <=? 2147483647) eqn:Q, (2 * q <=? 2147483647) eqn:R;
    try apply Z.leb_le in Q; try apply Z.leb_le in R; try apply Z.leb_gt in Q; try apply Z.leb_gt in R; lia.
Qed.
Lemma backoff_least : forall w a, 1 <= a -> Z.min int_max (2 * Z.max 250 w) <= backoff w a.
Proof.
  intros w a A. unfold backoff.
  assert (2 <= 2 ^ a) by (change 2 with (2 ^ 1) at 1; apply Z.pow_le_mono_r; lia).
  set (m := Z.max 250 w). assert (250 <= m) by lia. set (p := 2 ^ a) in *.
  assert (2 * m <= m * p) by nia. unfold int_max. destruct (m * p <=? 2147483647) eqn:Q;
    try apply Z.leb_le in Q; try apply Z.leb_gt in Q; lia.
Qed.

Definition waits_at_least (w : Z) (x : config * op) : Prop := g_wait (fst x) = Some w.

Lemma waits_double : forall w cb h t1 e1 u e v e2 t3 b1 b2, Forall (waits_at_least w) h ->
  trace (init cb) h = t1 ++ e1 :: u ++ e :: v ++ e2 :: t3 ->
  In (OTimer b1) (snd e1) -> In (OTimer b2) (snd e2) ->
  by_timer e -> asks e -> Forall keeps_attempt u -> Forall keeps_attempt v ->
  b2 = Z.min int_max (2 * b1).
Proof.
  intros w cb h t1 e1 u e v e2 t3 b1 b2 W H I1 I2 T A U V.
  destruct (trace_split _ _ _ _ H) as (h1 & h2 & -> & -> & H2). symmetry in H2.
  destruct (trace_split1 _ _ _ _ H2) as (x1 & h3 & -> & -> & H3). symmetry in H3.
  destruct (trace_split _ _ _ _ H3) as (h4 & h5 & -> & -> & H5). symmetry in H5.
  destruct (trace_split1 _ _ _ _ H5) as (x2 & h6 & -> & -> & H6). symmetry in H6.
  destruct (trace_split _ _ _ _ H6) as (h7 & h8 & -> & -> & H8). symmetry in H8.
  destruct (trace_split1 _ _ _ _ H8) as (x3 & h9 & -> & -> & _).
  rewrite Forall_forall in W. unfold waits_at_least in W.
  assert (G1 : g_wait (fst x1) = Some w) by (apply W; repeat (rewrite in_app_iff; cbn [In]); tauto).
  assert (G3 : g_wait (fst x3) = Some w) by (apply W; repeat (rewrite in_app_iff; cbn [In]); tauto).
  destruct (timer_entry _ _ _ I1) as (_ & _ & K1 & w1 & E1 & ->).
  destruct (timer_entry _ _ _ I2) as (_ & _ & _ & w2 & E2 & ->).
  rewrite (attempt_kept_all _ _ V), (repeat_counts _ _ T A), (attempt_kept_all _ _ U), K1.
  replace w1 with w by congruence. replace w2 with w by congruence.
  apply backoff_double.
  assert (B : forall h s, 1 <= k_attempt s -> 1 <= k_attempt (state s h)).
  { clear. induction h as [|x h IH]; intros s A; [exact A|]. cbn [state]. apply IH.
    destruct (step s x) as [s' outs] eqn:E. cbn [fst].
    destruct (step_effect _ _ _ _ E) as [(_ & -> & _)|(_ & F)]; [exact A|]. inversion F; subst; cbn; lia. }
  apply B. cbn. lia.
Qed.
Lemma attempt_pos : forall h s, 1 <= k_attempt s -> 1 <= k_attempt (state s h).
Proof.
  induction h as [|x h IH]; intros s A; [exact A|]. cbn [state]. apply IH.
  destruct (step s x) as [s' outs] eqn:E. cbn [fst].
  destruct (step_effect _ _ _ _ E) as [(_ & -> & _)|(_ & F)]; [exact A|]. inversion F; subst; cbn; lia.
Qed.
(** The first wait. *)
Lemma attempt_first : forall h s, k_attempt s = 1 -> Forall (fun e => ~ by_timer e) (trace s h) -> k_attempt (state s h) = 1.
Proof.
  induction h as [|x h IH]; intros s A N; [exact A|]. rewrite trace_cons in N. inversion N; subst. cbn [state]. apply IH; [|assumption].
  destruct (step s x) as [s' outs] eqn:E. cbn [fst snd] in *. destruct x as [c o].
  destruct (step_effect _ _ _ _ E) as [(_ & -> & _)|(_ & F)]; [exact A|]. cbn [fst snd] in *.
  inversion F; subst; cbn; try exact A; try reflexivity; exfalso; apply H1; eexists; reflexivity.
Qed.
