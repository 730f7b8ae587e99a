(** Proofs about when requests are made, and about stations that are no longer able to. *)
From Coq Require Import ZArith String List Bool Lia.
From Verif Require Import SecModel SecSpec SecProofs SecProofs2.
Import ListNotations.
Local Open Scope Z_scope.

Lemma pending_app : forall t1 t2 n, pending n (t1 ++ t2) = pending (pending n t1) t2.
Proof. induction t1 as [|e t1 IH]; intros t2 n; [reflexivity|]. cbn. apply IH. Qed.

Lemma step_pending : forall s x, k_gone s = false ->
  k_unanswered (fst (step s x)) = pending (k_unanswered s) [(snd x, snd (step s x))].
Proof.
  intros s x G. destruct (step s x) as [s' outs] eqn:E. destruct x as [c o]. cbn [fst snd pending] in *.
  destruct (step_effect _ _ _ _ E) as [(G1 & _)|(_ & F)]; [congruence|]. cbn [fst snd] in F.
  inversion F; subst; cbn [k_unanswered]; try (cbn; lia).
  - rewrite (quiet_requests _ (proj1 H0)). cbn. destruct o; try contradiction; lia.
  - cbn. destruct o; try contradiction; lia.
  - rewrite (quiet_requests _ (proj1 H1)). cbn. lia.
  - rewrite (quiet_requests _ (proj1 H)). cbn. lia.
Qed.
Lemma gone_stays : forall h s, k_gone s = true -> state s h = s.
Proof. induction h as [|x h IH]; intros s G; [reflexivity|]. cbn [state]. unfold step at 1. rewrite G. apply IH. exact G. Qed.
Lemma state_pending : forall h s, k_gone (state s h) = false -> k_unanswered (state s h) = pending (k_unanswered s) (trace s h).
Proof.
  induction h as [|x h IH]; intros s G; [reflexivity|]. rewrite trace_cons. cbn [state] in *.
  assert (G1 : k_gone s = false). { destruct (k_gone s) eqn:Q; [|reflexivity]. unfold step in G. rewrite Q in G. cbn [fst] in G. rewrite (gone_stays h s Q) in G. congruence. }
  rewrite (IH _ G), (step_pending s x G1). reflexivity.
Qed.

(** Nothing is awaited once the last request is settled. *)
Lemma stays_free : forall s x, k_awaited s = None -> asks_nothing (snd x, snd (step s x)) -> k_awaited (fst (step s x)) = None.
Proof.
  intros s x A N. destruct (step s x) as [s' outs] eqn:E. destruct x as [c o]. cbn [fst snd] in *.
  destruct (step_effect _ _ _ _ E) as [(_ & -> & _)|(_ & F)]; [exact A|]. cbn [fst snd] in F.
  inversion F; subst; cbn [k_awaited]; try assumption; try reflexivity; try congruence.
  exfalso. apply (N (asked_for u) r triggered). cbn. auto.
Qed.
Lemma stays_free_all : forall h s, k_awaited s = None -> Forall asks_nothing (trace s h) -> k_awaited (state s h) = None.
Proof.
  induction h as [|x h IH]; intros s A N; [exact A|]. rewrite trace_cons in N. inversion N; subst. cbn [state].
  apply IH; [apply stays_free; assumption|assumption].
Qed.
Lemma gone_back : forall h s, k_gone (state s h) = false -> k_gone s = false.
Proof. intros h s G. destruct (k_gone s) eqn:Q; [|reflexivity]. rewrite (gone_stays h s Q) in G. congruence. Qed.

Lemma settled_free : forall cb h, k_gone (state (init cb) h) = false -> settled (trace (init cb) h) ->
  k_awaited (state (init cb) h) = None.
Proof.
  intros cb h G [N|(t1 & e & t2 & H & N & S)]; [apply stays_free_all; [reflexivity|exact N]|].
  destruct (trace_split _ _ _ _ H) as (h1 & h2 & -> & -> & H2). symmetry in H2.
  destruct (trace_split1 _ _ _ _ H2) as (x & h3 & -> & -> & ->).
  rewrite state_app in *. cbn [state] in *. apply stays_free_all; [|exact N].
  assert (G1 : k_gone (state (init cb) h1) = false) by (apply gone_back with (h := x :: h3); exact G).
  pose proof (state_pending h1 (init cb) G1) as P. cbn [init k_unanswered] in P.
  destruct (step (state (init cb) h1) x) as [s' outs] eqn:E. destruct x as [c o]. cbn [fst snd] in *.
  destruct (step_effect _ _ _ _ E) as [(G2 & _)|(_ & F)]; [congruence|]. cbn [fst snd] in F.
  destruct o as [| |[]| | | | | | |]; try contradiction; inversion F; subst; cbn [k_awaited]; try reflexivity; try contradiction; lia.
Qed.

(** ** The process survives if certificates do not overtake answers *)

Definition orderly (s : st) : Prop :=
  k_gone s = false /\ (k_unanswered s <= 1)%nat /\ (k_awaited s = None -> k_unanswered s = O /\ k_timer s = None)
  /\ (k_timer s <> None -> k_unanswered s = O).
Lemma orderly_step : forall s x, orderly s -> (match snd x with Signed _ _ _ => k_unanswered s = O | _ => True end) ->
  orderly (fst (step s x)).
Proof.
  intros s x (G & U & A & T) I. destruct (step s x) as [s' outs] eqn:E. destruct x as [c o]. cbn [fst snd] in *.
  destruct (step_effect _ _ _ _ E) as [(G1 & _)|(_ & F)]; [congruence|]. cbn [fst snd] in F.
  unfold orderly. inversion F; subst; cbn [k_gone k_awaited k_unanswered k_timer].
  - auto.
  - destruct (A H0) as [U0 T0]. rewrite U0. repeat split; auto; try discriminate; intros Q; congruence.
  - auto.
  - destruct (A H0). congruence.
  - repeat split; auto; try discriminate; try lia; intros Q; specialize (T Q); lia.
  - repeat split; auto; try discriminate; lia.
  - repeat split; auto; try lia.
  - assert (T0 : k_timer s = None). { destruct (k_timer s) eqn:Q; [|reflexivity]. assert (k_unanswered s = O) by (apply T; discriminate). lia. }
    rewrite T0. repeat split; auto; try lia.
  - split; [exact G|]. split; [lia|]. split.
    + intros Q. destruct (A Q) as [A1 A2]. rewrite A1. auto.
    + intros Q. rewrite (T Q). reflexivity.
  - destruct (A H0). congruence.
  - assert (k_unanswered s = O) by (apply T; congruence). repeat split; auto.
  - assert (k_unanswered s = O) by (apply T; congruence). split; [exact G|]. split; [lia|]. split; [discriminate|]. intros Q. destruct (Q eq_refl).
  - repeat split; auto.
  - split; [exact G|]. split; [exact U|]. split; [intros Q; destruct (A Q); auto|]. intros Q. destruct (Q eq_refl).
Qed.
Lemma orderly_all : forall cb h, in_order (trace (init cb) h) -> orderly (state (init cb) h).
Proof.
  intros cb h. induction h as [|x h IH] using rev_ind; intros O.
  - unfold orderly. cbn. repeat split; auto; lia.
  - rewrite state_snoc. rewrite trace_snoc in O.
    assert (O1 : in_order (trace (init cb) h)).
    { intros t1 e t2 Q. apply (O t1 e (t2 ++ [(snd x, snd (step (state (init cb) h) x))])). rewrite Q, <- app_assoc. reflexivity. }
    specialize (IH O1). apply orderly_step; [exact IH|].
    specialize (O (trace (init cb) h) _ [] eq_refl). cbn [fst] in O.
    destruct (snd x); auto. rewrite (state_pending h (init cb) (proj1 IH)). exact O.
Qed.

(** ** A request that is never answered *)

(** While one request is awaited and nothing is outstanding and no timer is set, only a certificate helps. *)
Definition stuck (s : st) : Prop := k_awaited s <> None /\ k_unanswered s = O /\ k_timer s = None.
Lemma stuck_step : forall s x, stuck s -> (forall t c r, snd x <> Signed t c r) ->
  stuck (fst (step s x)) /\ asks_nothing (snd x, snd (step s x)).
Proof.
  intros s x (A & U & T) N. destruct (step s x) as [s' outs] eqn:E. destruct x as [c o]. cbn [fst snd] in *.
  destruct (step_effect _ _ _ _ E) as [(_ & -> & ->)|(_ & F)].
  { split; [split; auto|]. intros u r t []. }
  cbn [fst snd] in F. inversion F; subst; try congruence; try contradiction.
  - split; [split; auto|]. intros u r t. apply (proj1 H0).
  - split; [split; auto|]. intros u r t [].
  - split; [split; [|split]; cbn; auto; rewrite U; reflexivity|]. intros u r t [].
  - split; [split; [|split]; cbn; auto|]. intros u r t [].
Qed.
Lemma stuck_all : forall h s, stuck s -> Forall (fun x => forall t c r, snd x <> Signed t c r) h -> requests (trace s h) = O.
Proof.
  induction h as [|x h IH]; intros s S N; [reflexivity|]. rewrite trace_cons. inversion N; subst.
  destruct (stuck_step s x S H1) as [S1 Q]. cbn [requests snd]. rewrite (quiet_requests (snd (step s x)) Q). cbn. apply IH; assumption.
Qed.
