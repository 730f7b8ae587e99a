(** C120: running and final costs in OCPP 1.6, and the meter values that the CSMS asks for with them. *)
From Coq Require Import ZArith List Bool Lia.
From Verif Require Import Px16Model Px16Spec Px16Proofs.
Import ListNotations.
Local Open Scope list_scope.
Local Open Scope Z_scope.

(** [q] crosses [k], coming from [l], by 5 %. *)
Definition crosses (l q k : Z) : Prop := (l < k /\ 105 * k <= 100 * q) \/ (k < l /\ 100 * q <= 95 * k).

Lemma crossed_iff l q k : crossed l q k = true <-> crosses l q k.
Proof. unfold crossed, crosses. rewrite orb_true_iff, !andb_true_iff, !Z.ltb_lt, !Z.leb_le. lia. Qed.

(** A measurement sends meter values at most once: for the energy if the energy asked for is reached, else for the power if the power
    asked for is crossed since the last such meter values, or if there were none in this transaction. *)
Theorem C120_measure : forall e s h, happened e s h -> forall c en p,
  let l := snd (step e s (Measure c en p)) in
  let energy := exists k, wants_energy e h c k /\ k <= en in
  (energy -> l = [OMeter c ByEnergy]) /\
  (~ energy -> forall q k, p = Some q -> wants_power e h c k -> ((forall x, ~ sent_power h c x) \/ exists x, sent_power h c x /\ crosses x q k) -> l = [OMeter c ByPower]) /\
  (l = [] \/ (l = [OMeter c ByEnergy] /\ energy) \/
   (l = [OMeter c ByPower] /\ ~ energy /\ exists q k, p = Some q /\ wants_power e h c k /\ ((forall x, ~ sent_power h c x) \/ exists x, sent_power h c x /\ crosses x q k))).
Proof.
  intros e s h H c en p. cbv zeta. pose proof (happened_inv _ _ _ H c) as K.
  pose proof (o_en _ _ _ _ K) as E. pose proof (o_po _ _ _ _ K) as P. pose proof (o_la _ _ _ _ K) as L.
  cbn [step]. unfold measure, pricing_trigger. cbn [on_energy on_power last_power on_status timer prev measured tx].
  set (b := match on_energy (conns s c) with Some x => x <=? en | None => false end).
  assert (B : b = true <-> exists k, wants_energy e h c k /\ k <= en).
  { unfold b. destruct (on_energy (conns s c)) as [x | ].
    - rewrite Z.leb_le. split; [intros X; exists x; split; auto; now apply E | intros (k & X & Y); apply E in X; congruence].
    - split; [discriminate | intros (k & X & _); apply E in X; discriminate]. }
  destruct b.
  - assert (Y := proj1 B eq_refl). cbn [snd]. split; [auto |]. split; [tauto |]. auto.
  - assert (N : ~ exists k, wants_energy e h c k /\ k <= en) by (intros X; apply B in X; discriminate). clear B.
    assert (C : forall q x, (match last_power (conns s c) with Some l => crossed l q x | None => true end) = true <-> ((forall y, ~ sent_power h c y) \/ exists y, sent_power h c y /\ crosses y q x)).
    { intros q x. destruct (last_power (conns s c)) as [y | ] eqn:LP.
      - assert (SY : sent_power h c y) by now apply L. rewrite crossed_iff. split; [eauto |].
        intros [X | (z & X & Y)]; [exfalso; now apply (X y) |]. apply L in X. congruence.
      - split; auto. intros _. left. intros y X. apply L in X. discriminate. }
    split; [tauto |]. destruct (on_power (conns s c)) as [x | ] eqn:OP; [destruct p as [q | ] |].
    + assert (WX : wants_power e h c x) by now apply P.
      destruct (match last_power (conns s c) with Some l => crossed l q x | None => true end) eqn:M; cbn [snd].
      * split; [auto |]. right. right. split; auto. split; auto. exists q, x. split; auto. split; auto. now apply C.
      * split; auto. intros _ q' k' Q W X. inversion Q; subst. apply P in W. inversion W; subst. apply C in X. congruence.
    + split; auto. discriminate.
    + split; auto. intros _ q k _ W. apply P in W. discriminate.
Qed.

(** When the state of a connector changes, meter values are sent iff the state is one of those asked for, is not the one last seen while
    states were watched, and there is a measurement to send. *)
Theorem C120_status : forall e s h, happened e s h -> forall c st,
  let l := snd (step e s (Status c st)) in
  let due := (exists ss, wants_status e h c ss /\ In st ss) /\ ~ seen e h c st /\ has_measured h c in
  (due -> l = [OMeter c ByStatus]) /\ (~ due -> l = []).
Proof.
  intros e s h H c st. cbv zeta. pose proof (happened_inv _ _ _ H c) as K.
  pose proof (o_st _ _ _ _ K) as S. pose proof (o_pr _ _ _ _ K) as P. pose proof (o_me _ _ _ _ K) as M.
  cbn [step]. unfold status_changed. destruct (on_status (conns s c)) as [ss | ] eqn:O; cbn [snd].
  - assert (D : existsb (Z.eqb st) ss && match prev (conns s c) with Some x => negb (x =? st) | None => true end && measured (conns s c) = true <->
      (exists ss, wants_status e h c ss /\ In st ss) /\ ~ seen e h c st /\ has_measured h c).
    { rewrite !andb_true_iff, M, existsb_exists. assert (A : (exists x, In x ss /\ (st =? x) = true) <-> exists ss, wants_status e h c ss /\ In st ss).
      { split.
        - intros (x & I & X). apply Z.eqb_eq in X. subst. exists ss. split; auto. now apply S.
        - intros (ss' & W & I). apply S in W. inversion W; subst. exists st. split; auto. apply Z.eqb_refl. }
      rewrite A. assert (B : match prev (conns s c) with Some x => negb (x =? st) | None => true end = true <-> ~ seen e h c st).
      { rewrite <- P. destruct (prev (conns s c)) as [x | ]; [rewrite negb_true_iff, Z.eqb_neq; split; congruence | split; auto; discriminate]. }
      rewrite B. tauto. }
    match type of D with ?b = true <-> _ => destruct b end; split; intros X; auto; [exfalso; apply X; now apply D | apply D in X; discriminate].
  - split; auto. intros ((ss & W & _) & _). apply S in W. discriminate.
Qed.

(** When the time asked for has come, meter values are sent once, if there is a measurement to send. *)
Theorem C120_time : forall e s h, happened e s h -> forall c now,
  let l := snd (step e s (TimeUp c now)) in
  let due := (exists t, wants_time e h c t /\ t <= now) /\ has_measured h c in
  (due -> l = [OMeter c ByTime]) /\ (~ due -> l = []).
Proof.
  intros e s h H c now. cbv zeta. pose proof (happened_inv _ _ _ H c) as K.
  pose proof (o_ti _ _ _ _ K) as T. pose proof (o_me _ _ _ _ K) as M.
  cbn [step]. unfold time_up. destruct (timer (conns s c)) as [t | ] eqn:O.
  - assert (W : wants_time e h c t) by now apply T. destruct (Z.leb_spec t now) as [L | L]; cbn [snd].
    + destruct (measured (conns s c)); split; auto; intros X.
      * exfalso. apply X. split; [eauto | now apply M].
      * destruct X as (_ & X). apply M in X. discriminate.
    + split; auto. intros ((t' & X & Y) & _). apply T in X. inversion X; subst. lia.
  - split; auto. intros ((t' & X & Y) & _). apply T in X. discriminate.
Qed.

(** Nothing is put out when a transaction starts or stops. *)
Theorem C120_silent : forall e s c i, snd (step e s (Started c i)) = [] /\ snd (step e s (Stopped c)) = [].
Proof. auto. Qed.

(** Every message with costs is answered once. It reaches the application, with the connector whose transaction it names, iff there is a
    callback, the message can be read and this transaction runs; else it is rejected, unless its transaction id is no number that fits. *)
Theorem C120_cost : forall e s h, happened e s h -> forall f m of now d a,
  let o := Cost f m of now d a in
  let l := snd (step e s o) in
  (forall c t, concerns e h o c t -> exists x, l = [OCost c f x; OAnswer a]) /\
  ((forall c t, ~ concerns e h o c t) ->
     l = if has_callback e then match m with Some (Some m') => match id m' with Some _ => [ORejected] | None => [OCallError] end | _ => [ORejected] end else [ORejected]).
Proof.
  intros e s h H f m of now d a. cbv zeta. pose proof (happened_inv _ _ _ H) as V.
  pose proof (fun c t => concerns_iff e s h f m of now d a c t V) as C. cbn [step]. unfold set_session_cost. split.
  - intros c t X. apply C in X. destruct X as (HC & m' & i & -> & I & CO & _). rewrite HC, I, CO. cbn. eauto.
  - intros N. destruct m as [m | ]; [| destruct (has_callback e); auto].
    destruct (has_callback e) eqn:HC; cbn [negb]; auto. destruct m as [m | ]; auto. destruct (id m) as [i | ] eqn:I; auto.
    destruct (connector_of e s i) as [c | ] eqn:CO; auto. exfalso. apply (N c (trig m)). apply C. split; auto. exists m, i. auto.
Qed.

(** A transaction is named by at most one connector. *)
Theorem C120_cost_one : forall e h o c t c' t', concerns e h o c t -> concerns e h o c' t' -> c = c' /\ t = t'.
Proof.
  intros e h o c t c' t' (_ & f & m & of & now & d & a & i & -> & <- & I & B & R & F) (_ & f' & m' & of' & now' & d' & a' & i' & E & <- & I' & B' & R' & F').
  inversion E; subst. rewrite I in I'. inversion I'; subst. split; auto.
  destruct (Z.lt_trichotomy c c') as [X | [X | X]]; auto; exfalso; [apply (F' c) | apply (F c')]; auto; lia.
Qed.

(** Meter values for the energy come once per message that asks for them, in the same transaction. *)
Theorem C120_energy_once : forall e h c k, wants_energy e h c k ->
  exists h2 o l h1 t, h = h2 ++ (o, l) :: h1 /\ concerns e h1 o c t /\ at_energy t = Some k /\
    (forall o' l', In (o', l') h2 -> o' <> Stopped c /\ ~ In (OMeter c ByEnergy) l').
Proof.
  induction 1 as [h o l c t k C A | h o l c k W IH N S I].
  - exists [], o, l, h, t. split; [reflexivity |]. split; [auto |]. split; [auto |]. intros ? ? [].
  - destruct IH as (h2 & o2 & l2 & h1 & t & -> & C & A & F). exists ((o, l) :: h2), o2, l2, h1, t. split; [reflexivity |]. split; auto. split; auto.
    intros o' l' [X | X]; [inversion X; subst; auto | now apply (F o' l')].
Qed.

(** All costs are given to the application with the number of decimals that was configured when the first were: later configuration
    is not followed. *)
Lemma dec_inv e s h : happened e s h ->
  (decimals s = None -> forall o l c f d, In (o, l) h -> ~ In (OCost c f d) l) /\
  (forall x, decimals s = Some x -> (exists o l c f, In (o, l) h /\ In (OCost c f x) l) /\ forall o l c f d, In (o, l) h -> In (OCost c f d) l -> d = x).
Proof.
  induction 1 as [ | s h o H (IH1 & IH2)].
  - split; [intros _ o l c f d [] | discriminate].
  - assert (G : forall s' l', decimals s' = decimals s -> (forall c f d, ~ In (OCost c f d) l') ->
      (decimals s' = None -> forall o2 l c f d, In (o2, l) ((o, l') :: h) -> ~ In (OCost c f d) l) /\
      (forall x, decimals s' = Some x -> (exists o2 l c f, In (o2, l) ((o, l') :: h) /\ In (OCost c f x) l) /\ forall o2 l c f d, In (o2, l) ((o, l') :: h) -> In (OCost c f d) l -> d = x)).
    { intros s' l' -> N. split.
      - intros E o2 l c f d [X | X]; [inversion X; subst; apply N | now apply (IH1 E o2 l)].
      - intros x E. destruct (IH2 x E) as ((o2 & l & c & f & A & B) & F). split.
        + exists o2, l, c, f. split; auto. now right.
        + intros o3 l3 c3 f3 d3 [X | X] Y; [inversion X; subst; now apply N in Y | now apply (F o3 l3 c3 f3 d3)]. }
    destruct o as [c i | c | f m of now d a | c en p | c st | c now]; cbn [step].
    + apply G; auto.
    + apply G; auto.
    + unfold set_session_cost. destruct m as [m | ]; [| apply G; auto; intros ? ? ? [X | []]; discriminate].
      destruct (has_callback e); cbn [negb]; [| apply G; auto; intros ? ? ? [X | []]; discriminate].
      destruct m as [m | ]; [| apply G; auto; intros ? ? ? [X | []]; discriminate].
      destruct (id m) as [i | ]; [| apply G; auto; intros ? ? ? [X | []]; discriminate].
      destruct (connector_of e s i) as [c | ]; [| apply G; auto; intros ? ? ? [X | []]; discriminate].
      cbn [fst snd decimals]. split; [discriminate |]. intros x X. inversion X as [Y]; clear X. split.
      * eexists _, _, c, f. split; [now left | now left].
      * intros o2 l c2 f2 d2 [X | X] Z; [inversion X; subst; destruct Z as [Z | [Z | []]]; congruence |].
        destruct (decimals s) as [y | ] eqn:DS; [subst y; destruct (IH2 _ eq_refl) as (_ & F); now apply (F o2 l c2 f2) | exfalso; now apply (IH1 eq_refl o2 l c2 f2 d2)].
    + unfold measure. destruct (pricing_trigger _ _ _ _) as (k', l') eqn:P. apply G; auto. intros c2 f2 d2 X. unfold pricing_trigger in P.
      repeat match type of P with context [match ?x with _ => _ end] => destruct x end; inversion P; subst; cbn in X; intuition discriminate.
    + unfold status_changed. destruct (on_status _); cbn [fst snd]; apply G; auto. intros c2 f2 d2 X. destruct (_ && _); cbn in X; intuition discriminate.
    + unfold time_up. destruct (timer _) as [t | ]; [destruct (t <=? now) |]; cbn [fst snd]; apply G; auto. intros c2 f2 d2 X. destruct (measured _); cbn in X; intuition discriminate.
Qed.
Theorem C120_decimals : forall e s h, happened e s h -> forall f m of now d a c x,
  In (OCost c f x) (snd (step e s (Cost f m of now d a))) ->
  (forall o l c' f' y, In (o, l) h -> In (OCost c' f' y) l -> y = x) /\
  ((forall o l c' f' y, In (o, l) h -> ~ In (OCost c' f' y) l) -> x = match d with Some y => y | None => 3 end).
Proof.
  intros e s h H f m of now d a c x X. destruct (dec_inv _ _ _ H) as (D1 & D2). cbn [step] in X. unfold set_session_cost in X.
  destruct m as [m | ]; [| cbn in X; intuition discriminate]. destruct (has_callback e); cbn [negb] in X; [| cbn in X; intuition discriminate].
  destruct m as [m | ]; [| cbn in X; intuition discriminate]. destruct (id m) as [i | ]; [| cbn in X; intuition discriminate].
  destruct (connector_of e s i) as [b | ]; cbn [snd] in X; [| cbn in X; intuition discriminate].
  destruct X as [X | [X | []]]; [| discriminate]. injection X as -> X.
  destruct (decimals s) as [y | ]; subst x.
  - destruct (D2 y eq_refl) as ((o & l & c' & f' & A & B) & F). split; [auto |]. intros N. exfalso. now apply (N o l c' f' y).
  - split; auto. intros o l c' f' y A B. exfalso. now apply (D1 eq_refl o l c' f' y).
Qed.

(** If meter values were sent with exactly the power asked for, none are sent for the power any more until the CSMS sends new costs
    or the transaction ends, whatever is measured. *)
Theorem C120_power_stuck : forall e h c k, wants_power e h c k -> sent_power h c k ->
  forall h2 s, happened e s (h2 ++ h) -> (forall o l, In (o, l) h2 -> o <> Stopped c /\ forall f m of now d a, o <> Cost f m of now d a) ->
  forall o l, In (o, l) h2 -> ~ In (OMeter c ByPower) l.
Proof.
  intros e h c k W S. 
  assert (G : forall h2 s, happened e s (h2 ++ h) -> (forall o l, In (o, l) h2 -> o <> Stopped c /\ forall f m of now d a, o <> Cost f m of now d a) ->
     wants_power e (h2 ++ h) c k /\ sent_power (h2 ++ h) c k /\ forall o l, In (o, l) h2 -> ~ In (OMeter c ByPower) l).
  { induction h2 as [ | (o, l) h2 IH]; intros s H F; [split; auto; split; auto; intros ? ? [] |]. cbn [app] in H |- *.
    inversion H as [ | s1 h1 o1 H1 X Y]; subst. destruct (IH s1 H1) as (A & B & C); [intros o' l' I; apply (F o' l'); now right |].
    destruct (F o _ (or_introl eq_refl)) as (F1 & F2).
    assert (NP : ~ In (OMeter c ByPower) (snd (step e s1 o))).
    { intros X. destruct o as [c2 i | c2 | f m of now d a | c2 en p | c2 st | c2 now].
      - cbn in X. auto.
      - cbn in X. auto.
      - now apply (F2 f m of now d a).
      - destruct (C120_measure e s1 _ H1 c2 en p) as (_ & _ & [E | [(E & _) | (E & _ & q & k' & _ & WK & Q)]]); rewrite E in X; cbn in X.
        + auto.
        + intuition discriminate.
        + destruct X as [X | []]. inversion X; subst. pose proof (happened_inv _ _ _ H1 c) as K.
          apply (o_po _ _ _ _ K) in WK. apply (o_po _ _ _ _ K) in A. assert (k' = k) by congruence. subst k'.
          destruct Q as [Q | (y & Q & R)]; [now apply (Q k) |]. apply (o_la _ _ _ _ K) in Q. apply (o_la _ _ _ _ K) in B. assert (y = k) by congruence. subst. unfold crosses in R. lia.
      - destruct (C120_status e s1 _ H1 c2 st) as (D1 & D2). cbn [step] in *. unfold status_changed in X. destruct (on_status _); cbn [snd] in X; auto. destruct (_ && _); cbn in X; intuition discriminate.
      - cbn [step] in X. unfold time_up in X. destruct (timer _) as [t | ]; [destruct (t <=? now) |]; cbn [snd] in X; auto. destruct (measured _); cbn in X; intuition discriminate. }
    split; [apply wp_keep; auto; intros t; apply not_cost; auto |]. split; [now apply sp_keep |].
    intros o' l' [I | I]; [inversion I; subst; auto | now apply (C o' l')]. }
  intros h2 s H F. now apply (G h2 s H F).
Qed.

Print Assumptions C120_measure.
Print Assumptions C120_status.
Print Assumptions C120_time.
Print Assumptions C120_silent.
Print Assumptions C120_cost.
Print Assumptions C120_cost_one.
Print Assumptions C120_energy_once.
Print Assumptions C120_decimals.
Print Assumptions C120_power_stuck.

(** Histories. *)
Fixpoint play (e : env) (s : state) (h : hist) (os : list op) : state * hist :=
  match os with [] => (s, h) | o :: os => play e (fst (step e s o)) ((o, snd (step e s o)) :: h) os end.
Lemma play_happened e os s h : happened e s h -> happened e (fst (play e s h os)) (snd (play e s h os)).
Proof. revert s h. induction os as [ | o os IH]; intros s h H; cbn; auto. apply IH. now constructor. Qed.
Definition outs (e : env) (os : list op) : list (list out) := rev (map snd (snd (play e init [] os))).

Definition ev := {| n := 2; has_callback := true |}.
Definition tr t en p st := {| at_time := t; at_energy := en; at_power := p; at_status := st |}.
Definition msg i t := Some (Some {| id := i; trig := t |}).

(** Costs for the transaction of connector 2: meter values at 5000 Wh, when 1000 W is crossed, in state 3, and at 100. *)
Example C120_case :
  outs ev [Started 2 7; Cost false (msg (Some 7) (tr (Some 100) (Some 5000) (Some 1000) (Some [3]))) NoOffset 50 (Some 2) 0;
    Measure 2 10 (Some 800); Measure 2 20 (Some 1040); Measure 2 30 (Some 1050); Measure 2 40 (Some 960); Measure 2 50 (Some 950);
    Measure 2 5000 (Some 2000); Measure 2 5001 (Some 2000); Measure 1 9000 None; Status 2 4; Status 2 3; Status 2 3; TimeUp 2 99; TimeUp 2 100; TimeUp 2 101; Stopped 2;
    Measure 2 9000 (Some 10); Cost true (msg (Some 7) (tr None None None None)) NoOffset 200 (Some 3) 0; Cost false None NoOffset 0 None 0;
    Cost true (msg None (tr None None None None)) NoOffset 0 None 0]
  = [[]; [OCost 2 false 2; OAnswer 0]; [OMeter 2 ByPower]; []; [OMeter 2 ByPower]; []; [OMeter 2 ByPower]; [OMeter 2 ByEnergy]; [OMeter 2 ByPower]; []; []; [OMeter 2 ByStatus]; [];
     []; [OMeter 2 ByTime]; []; []; []; [ORejected]; [ORejected]; [OCallError]].
Proof. vm_compute. reflexivity. Qed.

(** The final costs of a transaction, sent by the CSMS when it has been told that it stopped, are rejected. *)
Theorem C120_final_refuted : exists os i, In (Started 1 i) os /\
  outs ev (os ++ [Stopped 1; Cost true (msg (Some i) (tr None None None None)) NoOffset 0 None 0]) =
  outs ev os ++ [[]; [ORejected]].
Proof. exists [Started 1 7; Measure 1 10 None], 7. split; [now left |]. vm_compute. reflexivity. Qed.
Print Assumptions C120_final_refuted.

(** The power crosses the value asked for by more than 5 %, but no meter values are sent. *)
Theorem C120_power_refuted : exists os k p q, p <= k /\ 2 * k <= q /\
  outs ev (os ++ [Cost false (msg (Some 7) (tr None None (Some k) None)) NoOffset 0 None 0; Measure 1 1 (Some p); Measure 1 2 (Some q)]) =
  outs ev os ++ [[OCost 1 false 3; OAnswer 0]; [OMeter 1 ByPower]; []].
Proof. exists [Started 1 7], 1000, 1000, 2000. split; [lia |]. split; [lia |]. vm_compute. reflexivity. Qed.
Print Assumptions C120_power_refuted.

(** A connector enters a state that is asked for, but no meter values are sent, as it was in this state when states were last watched. *)
Theorem C120_status_refuted : exists os st st' l, st <> st' /\
  outs ev (os ++ [Status 1 st; Cost false (msg (Some 7) (tr None None None (Some [st']))) NoOffset 0 None 0; Status 1 st']) =
  outs ev os ++ [[]; l; []] /\ has_measured (snd (play ev init [] os)) 1.
Proof.
  exists [Started 1 7; Measure 1 1 None; Cost false (msg (Some 7) (tr None None None (Some [3]))) NoOffset 0 None 0; Status 1 3;
    Cost false (msg (Some 7) (tr None None None None)) NoOffset 0 None 0], 4, 3, [OCost 1 false 3; OAnswer 0].
  split; [discriminate |]. split; [vm_compute; reflexivity |]. exists 1, None, []. cbn. auto 10.
Qed.
Print Assumptions C120_status_refuted.

(** A DisplayTimeOffset of -05:30 moves the time by -4:30 hours. *)
Theorem C120_offset_refuted : exists now t,
  outs ev [Started 1 7; Measure 1 1 None; Cost false (msg (Some 7) (tr (Some t) None None None)) (Parts (Some (-5)) (Some 30)) now None 0;
    TimeUp 1 (t - 5 * 3600 - 30 * 60); TimeUp 1 (t - 4 * 3600 - 30 * 60)] = [[]; []; [OCost 1 false 3; OAnswer 0]; []; [OMeter 1 ByTime]].
Proof. exists 0, 100000. vm_compute. reflexivity. Qed.
Print Assumptions C120_offset_refuted.

(** An old time stays when new costs ask for none, and when the new time is over. *)
Theorem C120_old_time_refuted : exists t,
  outs ev [Started 1 7; Measure 1 1 None; Cost false (msg (Some 7) (tr (Some t) None None None)) NoOffset 0 None 0;
    Cost false (msg (Some 7) (tr None None None None)) NoOffset 0 None 0; TimeUp 1 t] = [[]; []; [OCost 1 false 3; OAnswer 0]; [OCost 1 false 3; OAnswer 0]; [OMeter 1 ByTime]].
Proof. exists 100. vm_compute. reflexivity. Qed.
Print Assumptions C120_old_time_refuted.

(** The hypotheses of C120_power_stuck. *)
Example C120_power_stuck_case : exists h, wants_power ev h 1 1000 /\ sent_power h 1 1000 /\
  exists s, happened ev s ([(Measure 1 2 (Some 5000), [])] ++ h).
Proof.
  set (os := [Started 1 7; Cost false (msg (Some 7) (tr None None (Some 1000) None)) NoOffset 0 None 0; Measure 1 1 (Some 1000)]).
  pose proof (play_happened ev os init [] (h_init ev)) as H. exists (snd (play ev init [] os)).
  pose proof (happened_inv _ _ _ H 1) as K. split; [apply (o_po _ _ _ _ K); vm_compute; reflexivity |]. split; [apply (o_la _ _ _ _ K); vm_compute; reflexivity |].
  eexists. exact (h_step ev _ _ (Measure 1 2 (Some 5000)) H).
Qed.
