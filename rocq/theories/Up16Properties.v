(** C121: the price for a user in OCPP 1.6, and the authorization that waits for it. *)
From Coq Require Import ZArith List Bool Lia.
From Verif Require Import Up16Model Up16Spec Up16Proofs.
Import ListNotations.
Local Open Scope list_scope.
Local Open Scope Z_scope.

Ltac wk := match goal with |- context [match tariffs ?s ?i with Some x => Some (User x) | None => ?d end] => destruct (match tariffs s i with Some x => Some (User x) | None => d end) end.

Lemma alive_of e s g : happened e s g -> ~ In OUndefined g -> dead s = false.
Proof.
  induction 1 as [ | s g o H IH]; auto. intros N. assert (A : dead s = false) by (apply IH; intros X; apply N, in_or_app; auto). revert N. unfold step. rewrite A.
  destruct o as [t i | t | t r db | t w | t b | m act sto a | ].
  - destruct (_ && _); auto. unfold begin. destruct (ph s t); auto.
  - unfold lock. destruct (ph s t); auto. destruct (holder s); auto.
  - unfold conf, finish. destruct (ph s t); auto. destruct (stuck s); auto. destruct db; auto. cbn [negb]. destruct (_ && _); auto.
  - unfold fails, finish. destruct (ph s t); auto. destruct w; auto. destruct (stuck s); auto.
  - unfold wake. destruct (ph s t); auto. destruct (holder s); auto. wk; auto. destruct (others e s t i); auto.
    cbn [fst snd dead rev app]. intros N. exfalso. apply N. cbn. auto.
  - unfold set_user_price, deliver. destruct (stuck s); auto. destruct m as [m | ]; auto. destruct (callback e); auto. destruct m; auto. cbn [negb]. destruct (make _ _ _ _ _ _); auto. destruct (holder s); auto.
  - unfold go, deliver. destruct (stuck s) as [((? & ?) & ?) | ]; auto. destruct (holder s); auto.
Qed.

Section Alive.
Context (e : env) (s : state) (g : log) (H : happened e s g) (A : ~ In OUndefined g).

Lemma V : inv e s g.
Proof. exact (happened_inv _ _ _ H (alive_of _ _ _ H A)). Qed.
Lemma D : dead s = false.
Proof. exact (v_al _ _ _ V). Qed.
Lemma free_iff : holder s = None <-> forall u j, ~ asks g u j.
Proof.
  split.
  - intros N u j X. apply (asks_iff e s g u j V) in X. assert (Y : holder s = Some u) by (apply (v_ho _ _ _ V); eauto). congruence.
  - intros N. destruct (holder s) as [u | ] eqn:E; auto. apply (v_ho _ _ _ V) in E. destruct E as (j & X). apply (asks_iff e s g u j V) in X. now apply N in X.
Qed.
Lemma stuck_iff : stuck s = None <-> forall i x, ~ blocked g i x.
Proof.
  pose proof (v_st _ _ _ V) as X. destruct (stuck s) as [((i, x), a) | ]; split; auto; try discriminate. intros N. now apply N in X.
Qed.

(** Authorize.req is sent for a call once no other call waits for its answer: one at a time. *)
Theorem C121_ask : forall t i, begun g t i -> ((forall u j, ~ asks g u j) -> snd (step e s (Lock t)) = [OAuthorize t i]) /\ ((exists u j, asks g u j) -> snd (step e s (Lock t)) = [ONot]).
Proof.
  intros t i B. apply (wants_iff e s g t i V) in B. unfold step, lock. rewrite D, B. split; intros X.
  - rewrite (proj2 free_iff X). reflexivity.
  - destruct (holder s) eqn:E; auto. exfalso. destruct X as (u & j & X). exact (proj1 free_iff E u j X).
Qed.
Theorem C121_one : forall t i u j, asks g t i -> asks g u j -> t = u /\ i = j.
Proof.
  intros t i u j X Y. apply (asks_iff e s g t i V) in X. apply (asks_iff e s g u j V) in Y.
  assert (A1 : holder s = Some t) by (apply (v_ho _ _ _ V); eauto). assert (A2 : holder s = Some u) by (apply (v_ho _ _ _ V); eauto).
  assert (t = u) by congruence. subst. split; congruence.
Qed.

(** Authorize.conf: with pricing, an accepted token waits for its price; otherwise the answer is the result. While the receiving thread
    holds a price back, no answer comes. *)
Theorem C121_conf : forall t i r db, asks g t i ->
  ((exists j x, blocked g j x) -> snd (step e s (Conf t r db)) = [ONot]) /\
  ((forall j x, ~ blocked g j x) ->
    (db = false -> snd (step e s (Conf t r db)) = [OResult t Invalid NoTariff]) /\
    (db = true -> pricing e = true -> r = Accepted -> snd (step e s (Conf t r db)) = [OWaits t i]) /\
    (db = true -> pricing e = false \/ r <> Accepted -> snd (step e s (Conf t r db)) = [OResult t r NoTariff])).
Proof.
  intros t i r db X. apply (asks_iff e s g t i V) in X. unfold step, conf, finish. rewrite D, X. split.
  - intros (j & x & B). destruct (stuck s) eqn:E; auto. exfalso. exact (proj1 stuck_iff E j x B).
  - intros B. rewrite (proj2 stuck_iff B). split; [| split].
    + intros ->. reflexivity.
    + intros -> -> ->. reflexivity.
    + intros ->. intros [-> | N]; [reflexivity |]. cbn [negb]. destruct r; try congruence; destruct (pricing e); reflexivity.
Qed.
Theorem C121_fails : forall t i, asks g t i ->
  snd (step e s (Fails t TimedOut)) = [OResult t Invalid NoTariff] /\
  snd (step e s (Fails t Offline)) = [OResult t (if unknown e then Accepted else Invalid) NoTariff] /\
  ((forall j x, ~ blocked g j x) -> snd (step e s (Fails t Error)) = [OResult t Invalid NoTariff]).
Proof.
  intros t i X. apply (asks_iff e s g t i V) in X. unfold step, fails, finish. rewrite D, X. split; auto. split; auto. intros B. now rewrite (proj2 stuck_iff B).
Qed.

(** A call that waits ends with the price offered for its token, with the default once its time is over and nothing is offered, and not
    before; not while another call waits for Authorize.conf. *)
Theorem C121_wake : forall t i b, waits g t i ->
  let l := snd (step e s (Wake t b)) in
  ((exists u j, asks g u j) -> l = [ONot]) /\
  ((forall u j, ~ asks g u j) -> (forall u, waits g u i -> u = t) ->
    (forall x, offer g i x -> l = [OResult t Accepted (User x)]) /\
    ((forall x, ~ offer g i x) -> l = if b then [OResult t Accepted Default] else [ONot])).
Proof.
  intros t i b W. pose proof W as W'. apply (waits_iff e s g t i V) in W. cbv zeta. unfold step, wake. rewrite D, W. split.
  - intros (u & j & X). destruct (holder s) eqn:E; auto. exfalso. exact (proj1 free_iff E u j X).
  - intros N U. rewrite (proj2 free_iff N).
    assert (O : others e s t i = false). { destruct (others e s t i) eqn:O; auto. apply (others_iff e s g t i V) in O. destruct O as (u & X & Y). apply U in Y. congruence. }
    split.
    + intros x X. apply (v_ta _ _ _ V) in X. rewrite X, O. reflexivity.
    + intros X. destruct (tariffs s i) as [x | ] eqn:T; [apply (v_ta _ _ _ V) in T; now apply X in T |]. destruct b; [rewrite O |]; reflexivity.
Qed.

(** The only undefined behaviour: two calls wait for the same token, and one ends. *)
Theorem C121_undefined : forall o, In OUndefined (snd (step e s o)) -> exists t u i, t <> u /\ waits g t i /\ waits g u i.
Proof.
  intros o. unfold step. rewrite D. destruct o as [t i | t | t r db | t w | t b | m act sto a | ].
  - destruct (_ && _); [unfold begin; destruct (ph s t) |]; cbn; intuition discriminate.
  - unfold lock. destruct (ph s t); [| destruct (holder s) | |]; cbn; intuition discriminate.
  - unfold conf, finish. destruct (ph s t); try (cbn; intuition discriminate). destruct (stuck s); try (cbn; intuition discriminate). destruct db; try (cbn; intuition discriminate). cbn [negb]. destruct (_ && _); cbn; intuition discriminate.
  - unfold fails, finish. destruct (ph s t); try (cbn; intuition discriminate). destruct w; try (cbn; intuition discriminate). destruct (stuck s); cbn; intuition discriminate.
  - unfold wake. destruct (ph s t) as [ | i | i | i] eqn:P; try (cbn; intuition discriminate). destruct (holder s); try (cbn; intuition discriminate).
    wk; try (cbn; intuition discriminate). destruct (others e s t i) eqn:O; try (cbn; intuition discriminate).
    intros _. apply (others_iff e s g t i V) in O. destruct O as (u & N & W). exists t, u, i. split; auto. split; auto. now apply (waits_iff e s g t i V).
  - unfold set_user_price, deliver. destruct (stuck s); try (cbn; intuition discriminate). destruct m as [m | ]; try (cbn; intuition discriminate). destruct (callback e); try (cbn; intuition discriminate).
    destruct m; try (cbn; intuition discriminate). cbn [negb]. destruct (make _ _ _ _ _ _); try (cbn; intuition discriminate). destruct (holder s); cbn; intuition discriminate.
  - unfold go, deliver. destruct (stuck s) as [((? & ?) & ?) | ]; try (cbn; intuition discriminate). destruct (holder s); cbn; intuition discriminate.
Qed.

Lemma transaction_iff act sto i w : meant act sto i w <-> w = match transaction_of act sto i with None => ByToken i | Some t => BySession (session t) (txid t) end.
Proof.
  assert (F : forall l t, find (fun t => tag t =? i) l = Some t <-> first_of l i t).
  { induction l as [ | u l IH]; intros t; cbn [find].
    - split; [discriminate |]. intros X. inversion X as [l1 t' l2 i' E N Y]. destruct l1; discriminate.
    - destruct (Z.eqb_spec (tag u) i) as [E | E].
      + split.
        * intros X. inversion X; subst. apply (fo [] t l (tag t)); auto.
        * intros X. inversion X as [l1 t' l2 i' E' N Y]; subst. destruct l1 as [ | v l1]; cbn in Y; inversion Y; subst; auto. exfalso. apply (N u); auto. now left.
      + rewrite IH. split.
        * intros X. inversion X as [l1 t' l2 i' E' N Y]; subst. apply (fo (u :: l1) t l2 (tag t)); auto. intros v [<- | I]; auto.
        * intros X. inversion X as [l1 t' l2 i' E' N Y]; subst. destruct l1 as [ | v l1]; cbn in Y; inversion Y; subst; [congruence |]. constructor; auto. intros w' I. apply N. now right. }
  assert (FN : forall l, find (fun t => tag t =? i) l = None <-> forall t, In t l -> tag t <> i).
  { intros l. split.
    - intros X t I. apply (find_none _ _ X) in I. now apply Z.eqb_neq.
    - intros X. destruct (find _ l) eqn:Y; auto. apply find_some in Y. destruct Y as (I & Z). apply Z.eqb_eq in Z. now apply X in I. }
  assert (T : transaction_of act sto i = find (fun t => tag t =? i) (act ++ sto)).
  { unfold transaction_of. clear. induction act as [ | u l IH]; cbn; auto. destruct (tag u =? i); auto. }
  rewrite T. unfold meant. split.
  - intros [(t & X & ->) | (X & ->)]; [apply F in X; now rewrite X | apply FN in X; now rewrite X].
  - intros ->. destruct (find _ (act ++ sto)) as [t | ] eqn:X; [left; exists t; split; auto; now apply F | right; split; auto; now apply FN].
Qed.
Lemma make_iff act sto i text extra x : make e act sto i text extra = Some x <-> meant act sto i (who x) /\ says e (Price i text extra) (texts x).
Proof.
  rewrite transaction_iff. unfold make. split.
  - destruct text as [[m | ] | ]; try discriminate; destruct (multi e) eqn:M; try (destruct extra as [[l | ] | ]; try discriminate); intros X; inversion X; subst; cbn [who texts app]; (split; [reflexivity |]); try (constructor; auto; fail).
    all: rewrite ?app_nil_r; constructor; auto.
  - intros (W & S). destruct x as [w l]. cbn [who texts] in *. subst w. inversion S; subst; try (match goal with Y : _ \/ _ |- _ => destruct Y as [Y | Y] end);
    try (match goal with Y : multi e = _ |- _ => rewrite Y end); subst; try reflexivity; destruct (multi e); reflexivity.
Qed.

(** A price that can be read is given to the application, and so is its tariff: for the session of the first transaction of the token,
    else for the token. Each message is answered once; it may have to wait while a call waits for Authorize.conf. *)
Theorem C121_price : forall m act sto a, (forall j x, ~ blocked g j x) ->
  let l := snd (step e s (SetPrice m act sto a)) in
  (forall i text extra x, m = Some (Price i text extra) -> callback e = true -> meant act sto i (who x) -> says e (Price i text extra) (texts x) ->
     ((forall u j, ~ asks g u j) -> l = [OTariff i x; OReply a]) /\ ((exists u j, asks g u j) -> l = [OHeld i x])) /\
  (m = None \/ m = Some Unreadable \/ callback e = false -> l = [ORejected]) /\
  (forall i text extra, m = Some (Price i text extra) -> callback e = true -> (forall x, ~ says e (Price i text extra) x) -> l = [OCallError]).
Proof.
  intros m act sto a B. cbv zeta. unfold step, set_user_price. rewrite D, (proj2 stuck_iff B). split; [| split].
  - intros i text extra x -> -> W S. cbn [negb]. rewrite (proj2 (make_iff act sto i text extra x) (conj W S)). split.
    + intros N. rewrite (proj2 free_iff N). reflexivity.
    + intros (u & j & X). destruct (holder s) eqn:E; [reflexivity |]. exfalso. exact (proj1 free_iff E u j X).
  - intros [-> | [-> | ->]]; [reflexivity | | destruct m; reflexivity]. destruct (callback e); reflexivity.
  - intros i text extra -> -> N. cbn [negb]. destruct (make e act sto i text extra) as [x | ] eqn:M; [| reflexivity]. apply make_iff in M. destruct M as (_ & M). now apply N in M.
Qed.
(** A price that was held back is given on as soon as no call waits for Authorize.conf, and until then nothing is received. *)
Theorem C121_held : forall i x, blocked g i x ->
  ((forall u j, ~ asks g u j) -> exists a, snd (step e s Go) = [OTariff i x; OReply a]) /\
  ((exists u j, asks g u j) -> snd (step e s Go) = [ONot]) /\
  (forall m act sto a, snd (step e s (SetPrice m act sto a)) = [ONot]).
Proof.
  intros i x B. pose proof (v_st _ _ _ V) as X. destruct (stuck s) as [((j, y), a) | ] eqn:S; [| now apply X in B].
  unfold blocked in X, B. rewrite X in B. inversion B; subst. unfold step, go, set_user_price. rewrite D, S. split; [| split].
  - intros N. rewrite (proj2 free_iff N). exists a. reflexivity.
  - intros (u & j & Y). destruct (holder s) eqn:E; [reflexivity |]. exfalso. exact (proj1 free_iff E u j Y).
  - reflexivity.
Qed.
End Alive.

Lemma sent_none e s g : happened e s g -> dead s = false -> forall t i, ph s t = Sent i -> tariffs s i = None.
Proof.
  induction 1 as [ | s g o H IH]; [discriminate |]. intros AL.
  assert (A : dead s = false) by (destruct (dead s) eqn:D; auto; unfold step in AL; rewrite D in AL; cbn in AL; congruence).
  specialize (IH A). pose proof (happened_inv _ _ _ H A) as V. unfold step in *. rewrite A in *.
  assert (G : forall t i u p, set (ph s) u p t = Sent i -> p <> Sent i \/ t <> u -> ph s t = Sent i).
  { intros t i u p X N. destruct (Z.eq_dec t u) as [-> | M]; [rewrite set_same in X; tauto | now rewrite set_other in X]. }
  assert (NS : forall f i j, f i = None -> set f j (@None tariff) i = None).
  { intros f i j X. destruct (Z.eq_dec i j) as [-> | M]; [apply set_same | now rewrite set_other]. }
  assert (FI : forall u r t i, ph (fst (finish s u r)) t = Sent i -> tariffs (fst (finish s u r)) i = None).
  { intros u r t i X. cbn in *. apply IH with t. apply G in X; auto. left. discriminate. }
  assert (DE : holder s = None -> forall j x a t i, ph (fst (deliver s j x a)) t = Sent i -> tariffs (fst (deliver s j x a)) i = None).
  { intros N j x a t i X. cbn in X. assert (holder s = Some t) by (apply (v_ho _ _ _ V); eauto). congruence. }
  destruct o as [t i | t | t r db | t w | t b | m act sto a | ]; intros u j.
  - destruct (_ && _); [| apply IH]. unfold begin. destruct (ph s t); try apply IH. cbn. intros X. apply IH with u. apply G in X; auto. left. discriminate.
  - unfold lock. destruct (ph s t) as [ | i | i | i] eqn:P; try apply IH. destruct (holder s) eqn:HO; [apply IH |]. cbn. intros X.
    destruct (Z.eq_dec u t) as [-> | N]; [rewrite set_same in X; inversion X; subst; apply set_same |]. rewrite set_other in X by auto. apply NS. now apply IH with u.
  - unfold conf. destruct (ph s t); try apply IH. destruct (stuck s); [apply IH |]. destruct db; cbn [negb]; [| apply FI]. destruct (_ && _); [| apply FI].
    cbn. intros X. apply IH with u. apply G in X; auto. left. discriminate.
  - unfold fails. destruct (ph s t); try apply IH. destruct w; try apply FI. destruct (stuck s); [apply IH | apply FI].
  - revert AL. unfold wake. destruct (ph s t); try (intros _; apply IH). destruct (holder s); [intros _; apply IH |]. wk; [| intros _; apply IH]. destruct (others e s t i); [discriminate |].
    cbn. intros _ X. apply NS. apply IH with u. apply G in X; auto. left. discriminate.
  - unfold set_user_price. destruct (stuck s); [apply IH |]. destruct m as [m | ]; [| apply IH]. destruct (callback e); [| apply IH]. cbn [negb]. destruct m; [apply IH |].
    destruct (make _ _ _ _ _ _); [| apply IH]. destruct (holder s) eqn:HO; [apply IH | now apply DE].
  - unfold go. destruct (stuck s) as [((? & ?) & ?) | ]; [| apply IH]. destruct (holder s); [apply IH | now apply DE].
Qed.

Definition since (g : log) : Prop := forall t i x, offer g i x -> waits g t i ->
  exists g2 g1, g = g2 ++ OTariff i x :: g1 /\ waits g1 t i /\ forall y, ~ In (OTariff i y) g2.
Lemma since_cons g o : since g -> (forall t i, o = OWaits t i -> forall x, ~ offer g i x) -> since (o :: g).
Proof.
  intros S N t i x O W. inversion O as [g' u i' x' W' | g' i' x' o' O' A B C]; subst.
  - exists [], g. split; [reflexivity |]. split; [| intros y []]. exact W.
  - unfold waits, last_of in W. cbn [find] in W. destruct (of_thread t o) eqn:T.
    + inversion W; subst. exfalso. now apply (N t i eq_refl x).
    + destruct (S t i x O' W) as (g2 & g1 & -> & X & Y). exists (o :: g2), g1. split; [reflexivity |]. split; auto. intros y [Z | Z]; [now apply (C y) | now apply (Y y)].
Qed.
(** The price offered came after the call began to wait, and no newer one for this token has come. *)
Theorem C121_since : forall e s g, happened e s g -> ~ In OUndefined g -> forall t i x, offer g i x -> waits g t i ->
  exists g2 g1, g = g2 ++ OTariff i x :: g1 /\ waits g1 t i /\ forall y, ~ In (OTariff i y) g2.
Proof.
  induction 1 as [ | s g o H IH]; [intros _ t i x X; inversion X |]. intros N.
  assert (A : ~ In OUndefined g) by (intros X; apply N, in_or_app; auto). specialize (IH A). change (since (rev (snd (step e s o)) ++ g)).
  assert (AL := alive_of _ _ _ H A). pose proof (happened_inv _ _ _ H AL) as V.
  assert (Q : forall o', (forall t i, o' <> OWaits t i) -> since (o' :: g)) by (intros o' X; apply since_cons; [exact IH | intros t i Y; now apply X in Y]).
  assert (DE : forall i x a, since (rev (snd (deliver s i x a)) ++ g)) by (intros i x a; cbn; apply since_cons; [apply Q; discriminate | discriminate]).
  unfold step. rewrite AL. destruct o as [t i | t | t r db | t w | t b | m act sto a | ].
  - destruct (_ && _); [unfold begin; destruct (ph s t) |]; apply Q; discriminate.
  - unfold lock. destruct (ph s t); [| destruct (holder s) | |]; apply Q; discriminate.
  - unfold conf, finish. destruct (ph s t) as [ | i | i | i] eqn:P; try (apply Q; discriminate). destruct (stuck s); try (apply Q; discriminate). destruct db; try (apply Q; discriminate). cbn [negb].
    destruct (_ && _); try (apply Q; discriminate). cbn. apply since_cons; [exact IH |]. intros t' i' E x X. inversion E; subst. apply (v_ta _ _ _ V) in X.
    rewrite (sent_none _ _ _ H AL t' i' P) in X. discriminate.
  - unfold fails, finish. destruct (ph s t); try (apply Q; discriminate). destruct w; try (apply Q; discriminate). destruct (stuck s); apply Q; discriminate.
  - unfold wake. destruct (ph s t); try (apply Q; discriminate). destruct (holder s); try (apply Q; discriminate). wk; try (apply Q; discriminate). destruct (others e s t i); apply Q; discriminate.
  - unfold set_user_price. destruct (stuck s); try (apply Q; discriminate). destruct m as [m | ]; try (apply Q; discriminate). destruct (callback e); try (apply Q; discriminate). cbn [negb].
    destruct m; try (apply Q; discriminate). destruct (make _ _ _ _ _ _); try (apply Q; discriminate). destruct (holder s); [apply Q; discriminate | apply DE].
  - unfold go. destruct (stuck s) as [((? & ?) & ?) | ]; try (apply Q; discriminate). destruct (holder s); [apply Q; discriminate | apply DE].
Qed.

(** If a price comes while a call waits for Authorize.conf, the call gets no answer of the CSMS: whatever ends it, it is Invalid, or it is
    accepted as unknown because the station is offline. *)
Theorem C121_cut_off : forall e s g, happened e s g -> ~ In OUndefined g -> forall t i j x, asks g t i -> blocked g j x -> forall o,
  let l := snd (step e s o) in
  (forall k, ~ In (OWaits t k) l) /\
  (forall r y, In (OResult t r y) l -> y = NoTariff /\ (r = Invalid \/ (r = Accepted /\ unknown e = true))).
Proof.
  intros e s g H A t i j x T B o. cbv zeta. assert (AL := alive_of _ _ _ H A). pose proof (happened_inv _ _ _ H AL) as V. apply (asks_iff e s g t i V) in T.
  pose proof (v_st _ _ _ V) as ST. assert (HO : holder s = Some t) by (apply (v_ho _ _ _ V); eauto).
  destruct (stuck s) as [((i', x'), a') | ] eqn:S; [| now apply ST in B]. clear ST B. unfold step. rewrite AL.
  destruct o as [u k | u | u r db | u w | u b | m act sto a | ].
  - destruct (_ && _); [unfold begin; destruct (ph s u) |]; cbn; (split; [intros ? | intros ? ?]; intuition discriminate).
  - unfold lock. rewrite HO. destruct (ph s u); cbn; (split; [intros ? | intros ? ?]; intuition discriminate).
  - unfold conf. rewrite S. destruct (ph s u); cbn; (split; [intros ? | intros ? ?]; intuition discriminate).
  - unfold fails, finish. destruct (ph s u); try (cbn; split; [intros ? | intros ? ?]; intuition discriminate). rewrite S. destruct w; try (cbn; split; [intros ? | intros ? ?]; intuition discriminate); cbn.
    + split; [intros ? | intros r y [X | []]; inversion X; subst; auto]. intuition discriminate.
    + split; [intros ? | intros r y [X | []]; inversion X; subst; destruct (unknown e); auto]. intuition discriminate.
  - unfold wake. rewrite HO. destruct (ph s u); cbn; (split; [intros ? | intros ? ?]; intuition discriminate).
  - unfold set_user_price. rewrite S. cbn. split; [intros ? | intros ? ?]; intuition discriminate.
  - unfold go. rewrite S, HO. cbn. split; [intros ? | intros ? ?]; intuition discriminate.
Qed.

Print Assumptions C121_ask.
Print Assumptions C121_one.
Print Assumptions C121_conf.
Print Assumptions C121_fails.
Print Assumptions C121_wake.
Print Assumptions C121_undefined.
Print Assumptions C121_price.
Print Assumptions C121_held.
Print Assumptions C121_since.
Print Assumptions C121_cut_off.

Fixpoint play (e : env) (s : state) (g : log) (os : list op) : state * log :=
  match os with [] => (s, g) | o :: os => play e (fst (step e s o)) (rev (snd (step e s o)) ++ g) os end.
Lemma play_happened e os s g : happened e s g -> happened e (fst (play e s g os)) (snd (play e s g os)).
Proof. revert s g. induction os as [ | o os IH]; intros s g H; cbn; auto. apply IH. now constructor. Qed.
Definition outs (e : env) (os : list op) : list out := rev (snd (play e init [] os)).

Definition ev := {| threads := 3; pricing := true; callback := true; multi := true; language := Some 1; unknown := false |}.
Definition msg i := Some (Price i (Some (Some 5)) (Some (Some [(6, Some 2)]))).
Definition tok i := {| who := ByToken i; texts := [(5, Some 1); (6, Some 2)] |}.

(** Two calls, both with their price; a third without. *)
Example C121_case :
  outs ev [Begin 1 7; Lock 1; Begin 2 8; Lock 2; Conf 1 Accepted true; Lock 2; Conf 2 Accepted true; SetPrice (msg 8) [] [] 0; Wake 1 false; Wake 2 false; SetPrice (msg 7) [] [] 0;
    Wake 1 false; Begin 3 9; Lock 3; Conf 3 Accepted true; Wake 3 true;
    SetPrice (msg 9) [{| tag := 9; session := 44; txid := Some 3 |}] [] 0; SetPrice None [] [] 0; SetPrice (Some (Price 1 (Some None) None)) [] [] 0; Begin 3 9; Lock 3; Conf 3 Blocked true]
  = [OBegin 1 7; OAuthorize 1 7; OBegin 2 8; ONot; OWaits 1 7; OAuthorize 2 8; OWaits 2 8; OTariff 8 (tok 8); OReply 0; ONot; OResult 2 Accepted (User (tok 8)); OTariff 7 (tok 7); OReply 0;
     OResult 1 Accepted (User (tok 7)); OBegin 3 9; OAuthorize 3 9; OWaits 3 9; OResult 3 Accepted Default;
     OTariff 9 {| who := BySession 44 (Some 3); texts := [(5, Some 1); (6, Some 2)] |}; OReply 0; ORejected; OCallError; OBegin 3 9; OAuthorize 3 9; OResult 3 Blocked NoTariff].
Proof. vm_compute. reflexivity. Qed.

(** A call whose token the CSMS accepts ends as Invalid: a price for another call came before its Authorize.conf, and blocks the
    receiving thread until it gives up. The other call cannot end either until then. *)
Theorem C121_accepted_refuted : exists os, 
  outs ev (os ++ [Conf 2 Accepted true; Wake 1 true; Go; Fails 2 TimedOut; Go]) = outs ev os ++ [ONot; ONot; ONot; OResult 2 Invalid NoTariff; OTariff 7 (tok 7); OReply 0].
Proof. exists [Begin 1 7; Lock 1; Conf 1 Accepted true; Begin 2 8; Lock 2; SetPrice (msg 7) [] [] 0]. vm_compute. reflexivity. Qed.
Print Assumptions C121_accepted_refuted.

(** Two calls for the same token: the end of the first destroys what the second waits for. *)
Theorem C121_undefined_refuted : exists os, In OUndefined (outs ev os) /\ forall t, In (Begin t 7) os -> t = 1 \/ t = 2.
Proof.
  exists [Begin 1 7; Lock 1; Conf 1 Accepted true; Begin 2 7; Lock 2; Conf 2 Accepted true; SetPrice (msg 7) [] [] 0; Wake 1 false].
  split; [vm_compute; auto 20 |]. intros t X. cbn in X. intuition congruence.
Qed.
Print Assumptions C121_undefined_refuted.
(** And a price that has come for the first is lost if the second asks before the first wakes. *)
Theorem C121_lost_refuted : exists os, In (OTariff 7 (tok 7)) (outs ev os) /\ 
  outs ev (os ++ [Lock 2; Fails 2 TimedOut; Wake 1 true]) = outs ev os ++ [OAuthorize 2 7; OResult 2 Invalid NoTariff; OResult 1 Accepted Default].
Proof. exists [Begin 1 7; Lock 1; Conf 1 Accepted true; Begin 2 7; SetPrice (msg 7) [] [] 0]. split; vm_compute; auto 20. Qed.
Print Assumptions C121_lost_refuted.

(** The hypotheses of C121_since and C121_cut_off. *)
Example C121_since_case : exists s g, happened ev s g /\ ~ In OUndefined g /\ offer g 7 (tok 7) /\ waits g 1 7.
Proof.
  set (os := [Begin 1 7; Lock 1; Conf 1 Accepted true; SetPrice (msg 7) [] [] 0]).
  exists (fst (play ev init [] os)), (snd (play ev init [] os)). pose proof (play_happened ev os init [] (h_init ev)) as H.
  assert (N : ~ In OUndefined (snd (play ev init [] os))) by (vm_compute; intuition discriminate). split; auto. split; auto.
  pose proof (V _ _ _ H N) as X. split; [apply (v_ta _ _ _ X); vm_compute; reflexivity | vm_compute; reflexivity].
Qed.
Example C121_cut_off_case : exists s g, happened ev s g /\ ~ In OUndefined g /\ asks g 1 7 /\ blocked g 7 (tok 7).
Proof.
  set (os := [Begin 1 7; Lock 1; SetPrice (msg 7) [] [] 0]).
  exists (fst (play ev init [] os)), (snd (play ev init [] os)). split; [apply play_happened; constructor |].
  split; [vm_compute; intuition discriminate |]. split; vm_compute; reflexivity.
Qed.
