(** Proofs about meter values for pricing. *)
From Coq Require Import ZArith List Bool Lia.
From Verif Require Import Px16Model Px16Spec.
Import ListNotations.
Local Open Scope list_scope.
Local Open Scope Z_scope.

Record ok (e : env) (h : hist) (c : Z) (k : conn) : Prop := {
  o_tx : forall i, tx k = Some i <-> runs h c i;
  o_en : forall x, on_energy k = Some x <-> wants_energy e h c x;
  o_po : forall x, on_power k = Some x <-> wants_power e h c x;
  o_st : forall x, on_status k = Some x <-> wants_status e h c x;
  o_la : forall x, last_power k = Some x <-> sent_power h c x;
  o_pr : forall x, prev k = Some x <-> seen e h c x;
  o_me : measured k = true <-> has_measured h c;
  o_ti : forall x, timer k = Some x <-> wants_time e h c x
}.
Definition inv (e : env) (s : state) (h : hist) : Prop := forall c, ok e h c (conns s c).

(** What does not concern a connector leaves all its relations alone. *)
Lemma ru_other h o l c i : o <> Stopped c -> (forall j, o <> Started c j) -> runs ((o, l) :: h) c i <-> runs h c i.
Proof. intros A B. split; [intros X; inversion X; subst; auto; exfalso; now apply (B i) | intros X; now apply ru_keep]. Qed.
Lemma we_other e h o l c k : (forall t, ~ concerns e h o c t) -> o <> Stopped c -> ~ In (OMeter c ByEnergy) l -> wants_energy e ((o, l) :: h) c k <-> wants_energy e h c k.
Proof. intros A B C. split; [intros X; inversion X; subst; auto; exfalso; eapply A; eauto | intros X; now apply we_keep]. Qed.
Lemma wp_other e h o l c k : (forall t, ~ concerns e h o c t) -> o <> Stopped c -> wants_power e ((o, l) :: h) c k <-> wants_power e h c k.
Proof. intros A B. split; [intros X; inversion X; subst; auto; exfalso; eapply A; eauto | intros X; now apply wp_keep]. Qed.
Lemma ws_other e h o l c k : (forall t, ~ concerns e h o c t) -> o <> Stopped c -> wants_status e ((o, l) :: h) c k <-> wants_status e h c k.
Proof. intros A B. split; [intros X; inversion X; subst; auto; exfalso; eapply A; eauto | intros X; now apply ws_keep]. Qed.
Lemma sp_other h o l c p : o <> Stopped c -> ~ In (OMeter c ByPower) l -> sent_power ((o, l) :: h) c p <-> sent_power h c p.
Proof. intros A B. split; [intros X; inversion X; subst; auto; tauto | intros X; now apply sp_keep]. Qed.
Lemma se_other e h o l c st : o <> Stopped c -> (forall st' ss, o = Status c st' -> ~ wants_status e h c ss) -> seen e ((o, l) :: h) c st <-> seen e h c st.
Proof. intros A B. split; [intros X; inversion X; subst; auto; exfalso; eapply B; eauto | intros X; apply se_keep; auto]. Qed.
Lemma me_other h o l c : (forall en p, o <> Measure c en p) -> has_measured ((o, l) :: h) c <-> has_measured h c.
Proof.
  intros A. split.
  - intros (en & p & l' & [X | X]); [inversion X; subst; exfalso; now apply (A en p) | exists en, p, l'; auto].
  - intros (en & p & l' & X). exists en, p, l'. now right.
Qed.
Lemma concerns_timer e h o c t : (forall tr, ~ concerns e h o c tr) -> ~ sets_timer e h o c t.
Proof. intros A (f & m & of & now & d & a & t0 & E & (tr & X & _) & _). eapply A; eauto. Qed.
Lemma wt_other e h o l c t : (forall t', ~ sets_timer e h o c t') -> o <> Stopped c -> (forall now, o <> TimeUp c now) -> wants_time e ((o, l) :: h) c t <-> wants_time e h c t.
Proof. intros A B C. split; [intros X; inversion X; subst; auto; exfalso; eapply A; eauto | intros X; apply wt_keep; auto; intros now E; now apply C in E]. Qed.

Definition about (o : op) (c : Z) : Prop :=
  match o with Started d _ | Stopped d | Measure d _ _ | Status d _ | TimeUp d _ => d = c | Cost _ _ _ _ _ _ => False end.

Lemma not_cost e h o c t : (forall f m of now d a, o <> Cost f m of now d a) -> ~ concerns e h o c t.
Proof. intros A (_ & f & m & of & now & d & a & i & E & _). now apply A in E. Qed.

Lemma frame e h o l c k : ok e h c k -> ~ about o c -> (forall t, ~ concerns e h o c t) -> (forall w, ~ In (OMeter c w) l) -> ok e ((o, l) :: h) c k.
Proof.
  intros K A C M.
  assert (NS : o <> Stopped c) by (intros ->; apply A; reflexivity).
  constructor.
  - intros i. rewrite ru_other; [apply (o_tx _ _ _ _ K) | auto | intros j ->; now apply A].
  - intros x. rewrite we_other; auto. apply (o_en _ _ _ _ K).
  - intros x. rewrite wp_other; auto. apply (o_po _ _ _ _ K).
  - intros x. rewrite ws_other; auto. apply (o_st _ _ _ _ K).
  - intros x. rewrite sp_other; auto. apply (o_la _ _ _ _ K).
  - intros x. rewrite se_other; auto; [apply (o_pr _ _ _ _ K) | intros st' ss ->; exfalso; now apply A].
  - rewrite me_other; [apply (o_me _ _ _ _ K) | intros en p ->; now apply A].
  - intros x. rewrite wt_other; auto; [apply (o_ti _ _ _ _ K) | intros t; now apply concerns_timer | intros now ->; now apply A].
Qed.

Lemma conns_in k c : In c (map Z.of_nat (seq 1 k)) <-> 1 <= c <= Z.of_nat k.
Proof.
  rewrite in_map_iff. split.
  - intros (x & <- & I). apply in_seq in I. lia.
  - intros H. exists (Z.to_nat c). split; [lia |]. apply in_seq. lia.
Qed.

(** The first of an ascending list. *)
Lemma find_first f m k c : find f (map Z.of_nat (seq m k)) = Some c <->
  Z.of_nat m <= c < Z.of_nat (m + k) /\ f c = true /\ forall b, Z.of_nat m <= b < c -> f b = false.
Proof.
  revert m. induction k as [ | k IH]; intros m.
  - cbn. split; [discriminate | intros (A & _); lia].
  - cbn [seq map find]. destruct (f (Z.of_nat m)) eqn:F.
    + split.
      * intros X. inversion X; subst. split; [lia |]. split; auto. intros b R. lia.
      * intros (A & B & C). destruct (Z.eq_dec c (Z.of_nat m)); [congruence |]. rewrite (C (Z.of_nat m)) in F by lia. discriminate.
    + rewrite IH. split; intros (A & B & C); (split; [| split; [auto |]]).
      * lia.
      * intros b R. destruct (Z.eq_dec b (Z.of_nat m)); [congruence |]. apply C. lia.
      * assert (c <> Z.of_nat m) by congruence. lia.
      * intros b R. apply C. lia.
Qed.
Lemma connector_iff e s h i c : inv e s h -> connector_of e s i = Some c <-> 1 <= c <= Z.of_nat (n e) /\ runs h c i /\ forall b, 1 <= b < c -> ~ runs h b i.
Proof.
  intros V. unfold connector_of. rewrite find_first.
  assert (F : forall b, match tx (conns s b) with Some x => x =? i | None => false end = true <-> runs h b i).
  { intros b. rewrite <- (o_tx _ _ _ _ (V b)). destruct (tx (conns s b)) as [x | ]; [rewrite Z.eqb_eq; split; congruence | split; discriminate]. }
  split; intros (A & B & C); (split; [lia | split; [now apply F |]]).
  - intros b R X. apply F in X. rewrite C in X by lia. discriminate.
  - intros b R. apply not_true_is_false. intros X. apply F in X. now apply (C b).
Qed.
Lemma concerns_iff e s h f m of now d a c t : inv e s h ->
  concerns e h (Cost f m of now d a) c t <-> has_callback e = true /\ exists m' i, m = Some (Some m') /\ id m' = Some i /\ connector_of e s i = Some c /\ trig m' = t.
Proof.
  intros V. split.
  - intros (H & f' & m' & of' & now' & d' & a' & i & E & T & I & R). inversion E; subst. split; auto. exists m', i. split; [auto | split; [auto | split; [| auto]]]. apply (connector_iff e s h i c V). tauto.
  - intros (H & m' & i & -> & I & C & T). split; auto. exists f, m', of, now, d, a, i. split; [auto | split; [auto | split; [auto |]]]. now apply (connector_iff e s h i c V).
Qed.

Lemma upd_same s c k : conns (upd s c k) c = k.
Proof. cbn. now rewrite Z.eqb_refl. Qed.
Lemma upd_other s c k d : d <> c -> conns (upd s c k) d = conns s d.
Proof. intros N. cbn. now rewrite (proj2 (Z.eqb_neq _ _) N). Qed.

Lemma inv_upd e s h o l c k : inv e s h -> about o c -> (forall d, o <> Stopped d \/ d = c) -> ok e ((o, l) :: h) c k -> (forall d t, ~ concerns e h o d t) ->
  (forall d w, d <> c -> ~ In (OMeter d w) l) -> inv e (upd s c k) ((o, l) :: h).
Proof.
  intros V A _ K C M d. destruct (Z.eq_dec d c) as [-> | N]; [now rewrite upd_same |]. rewrite upd_other by auto. apply frame; auto.
  intros X. apply N. destruct o; cbn in A, X; congruence || tauto.
Qed.

Ltac nc := intros; apply not_cost; discriminate.

Lemma shifted_iff o t t' : shifted o t t' <-> t' = shift o t.
Proof.
  unfold shifted, shift. split.
  - intros [(hh & mm & -> & ->) | [(hh & -> & ->) | (N & ->)]]; try lia. destruct o as [ | | [hh | ] mm]; auto. exfalso. now apply (N hh mm).
  - intros ->. destruct o as [ | | [hh | ] [mm | ]].
    + right. right. split; [discriminate | auto].
    + right. right. split; [discriminate | auto].
    + left. exists hh, mm. split; auto. lia.
    + right. left. eauto.
    + right. right. split; [discriminate | auto].
    + right. right. split; [discriminate | auto].
Qed.

(** A message with costs, for its connector. *)
Lemma cost_ok e s h f m' of now d a c l i : inv e s h -> has_callback e = true -> id m' = Some i -> connector_of e s i = Some c -> (forall w, ~ In (OMeter c w) l) ->
  let k := conns s c in
  let k := {| on_energy := at_energy (trig m'); on_power := at_power (trig m'); on_status := at_status (trig m'); timer := timer k;
              last_power := last_power k; prev := prev k; measured := measured k; tx := tx k |} in
  ok e ((Cost f (Some (Some m')) of now d a, l) :: h) c (match at_time (trig m') with Some t => set_timer k of now t | None => k end).
Proof.
  intros V HC I CO M k0 k. set (o := Cost f (Some (Some m')) of now d a). pose proof (V c) as K.
  assert (CC : concerns e h o c (trig m')) by (apply (concerns_iff e s h f (Some (Some m')) of now d a c (trig m') V); split; auto; exists m', i; auto).
  assert (CU : forall t, concerns e h o c t -> t = trig m').
  { intros t X. apply (concerns_iff e s h f (Some (Some m')) of now d a c t V) in X. destruct X as (_ & m2 & i2 & E & _ & _ & <-). now inversion E. }
  assert (KF : forall t', let k2 := match at_time (trig m') with Some t => set_timer k of now t | None => k end in
     on_energy k2 = at_energy (trig m') /\ on_power k2 = at_power (trig m') /\ on_status k2 = at_status (trig m') /\ last_power k2 = last_power k0 /\ prev k2 = prev k0 /\
     measured k2 = measured k0 /\ tx k2 = tx k0 /\ (timer k2 = Some t' <-> (exists t, at_time (trig m') = Some t /\ now <= t /\ t' = shift of t) \/ ((forall t, at_time (trig m') = Some t -> t < now) /\ timer k0 = Some t'))).
  { intros t' k2. subst k2. destruct (at_time (trig m')) as [t | ].
    - unfold set_timer. destruct (Z.ltb_spec t now); cbn; repeat (split; [reflexivity |]).
      + split; [intros X; right; split; auto; intros t2 Y; inversion Y; subst; auto | intros [(t2 & Y & Z & _) | (_ & X)]; auto; inversion Y; lia].
      + split; [intros X; inversion X; subst; left; eauto | intros [(t2 & Y & _ & ->) | (X & _)]; [now inversion Y | specialize (X t eq_refl); lia]].
    - cbn; repeat (split; [reflexivity |]). split; [intros X; right; split; auto; discriminate | intros [(t2 & Y & _) | (_ & X)]; auto; discriminate]. }
  set (k2 := match at_time (trig m') with Some t => set_timer k of now t | None => k end) in *. cbv zeta in KF.
  destruct (KF 0) as (E1 & E2 & E3 & E4 & E5 & E6 & E7 & _).
  constructor.
  - intros j. rewrite E7, ru_other by discriminate. apply (o_tx _ _ _ _ K).
  - intros x. rewrite E1. split; [intros X; now apply we_now with (trig m') |]. intros X. inversion X; subst.
    + match goal with Y : concerns _ _ _ _ _ |- _ => apply CU in Y; subst; auto end.
    + exfalso. match goal with Y : forall _, ~ concerns _ _ _ _ _ |- _ => now apply (Y (trig m')) end.
  - intros x. rewrite E2. split; [intros X; now apply wp_now with (trig m') |]. intros X. inversion X; subst.
    + match goal with Y : concerns _ _ _ _ _ |- _ => apply CU in Y; subst; auto end.
    + exfalso. match goal with Y : forall _, ~ concerns _ _ _ _ _ |- _ => now apply (Y (trig m')) end.
  - intros x. rewrite E3. split; [intros X; now apply ws_now with (trig m') |]. intros X. inversion X; subst.
    + match goal with Y : concerns _ _ _ _ _ |- _ => apply CU in Y; subst; auto end.
    + exfalso. match goal with Y : forall _, ~ concerns _ _ _ _ _ |- _ => now apply (Y (trig m')) end.
  - intros x. rewrite E4, sp_other; [apply (o_la _ _ _ _ K) | discriminate | apply M].
  - intros x. rewrite E5, se_other; [apply (o_pr _ _ _ _ K) | discriminate | discriminate].
  - rewrite E6, me_other; [apply (o_me _ _ _ _ K) | discriminate].
  - intros x. destruct (KF x) as (_ & _ & _ & _ & _ & _ & _ & T). rewrite T.
    assert (ST : forall t', sets_timer e h o c t' <-> exists t, at_time (trig m') = Some t /\ now <= t /\ t' = shift of t).
    { intros t'. split.
      - intros (f2 & m2 & of2 & now2 & d2 & a2 & t0 & E & (tr & X & Y) & L & S). inversion E; subst. apply CU in X. subst. exists t0. split; auto. split; auto. now apply shifted_iff.
      - intros (t & X & L & ->). exists f, (Some (Some m')), of, now, d, a, t. split; [reflexivity |]. split; [eauto |]. split; auto. now apply shifted_iff. }
    split.
    + intros [X | (N & X)].
      * apply wt_now. now apply ST.
      * apply wt_keep; try discriminate; [now apply (o_ti _ _ _ _ K) |]. intros t' Y. apply ST in Y. destruct Y as (t & A & B & _). apply N in A. lia.
    + intros X. inversion X; subst.
      * left. now apply ST.
      * right. split; [| now apply (o_ti _ _ _ _ K)]. intros t A. destruct (Z_lt_le_dec t now); auto. exfalso.
        match goal with Y : forall _, ~ sets_timer _ _ _ _ _ |- _ => apply (Y (shift of t)); apply ST; eauto end.
Qed.

Lemma none_cost e s h f m of now d a : inv e s h -> (forall m', m = Some (Some m') -> has_callback e = true -> forall i, id m' = Some i -> connector_of e s i = None) ->
  forall l, (forall c w, ~ In (OMeter c w) l) -> inv e s ((Cost f m of now d a, l) :: h).
Proof.
  intros V N l M c. apply frame; auto. intros t X. apply (concerns_iff e s h f m of now d a c t V) in X. destruct X as (H & m' & i & E & I & C & _). rewrite (N m' E H i I) in C. discriminate.
Qed.

Lemma cost_inv e s h f m of now d a : inv e s h -> inv e (fst (set_session_cost e s f m of now d a)) ((Cost f m of now d a, snd (set_session_cost e s f m of now d a)) :: h).
Proof.
  intros V. unfold set_session_cost. destruct m as [m | ]; [| apply none_cost; auto; [discriminate | intros c w [X | []]; discriminate]].
  destruct (has_callback e) eqn:HC; cbn [negb]; [| apply none_cost; auto; [intros; congruence | intros c w [X | []]; discriminate]].
  destruct m as [m | ]; [| apply none_cost; auto; [discriminate | intros c w [X | []]; discriminate]].
  destruct (id m) as [i | ] eqn:I; [| apply none_cost; auto; [intros m' E _ j J; inversion E; subst; congruence | intros c w [X | []]; discriminate]].
  destruct (connector_of e s i) as [c | ] eqn:CO; [| apply none_cost; auto; [intros m' E _ j J; inversion E; subst; rewrite I in J; inversion J; subst; auto | intros c w [X | []]; discriminate]].
  cbv zeta. cbn [fst snd]. intros b. cbn [conns].
  destruct (Z.eq_dec b c) as [-> | NB].
  - rewrite upd_same. apply cost_ok with i; auto. intros w [X | [X | []]]; discriminate.
  - rewrite upd_other by auto. apply frame; auto; [| intros w [X | [X | []]]; discriminate].
    intros t X. apply (concerns_iff e s h f (Some (Some m)) of now d a b t V) in X. destruct X as (_ & m' & j & E & J & C & _). inversion E; subst. rewrite I in J. inversion J; subst. congruence.
Qed.

(** A measurement. *)
Lemma measure_inv e s h c en p : inv e s h -> inv e (fst (measure s c en p)) ((Measure c en p, snd (measure s c en p)) :: h).
Proof.
  intros V. unfold measure. pose proof (V c) as K.
  set (k := {| on_energy := on_energy (conns s c); on_power := on_power (conns s c); on_status := on_status (conns s c); timer := timer (conns s c);
    last_power := last_power (conns s c); prev := prev (conns s c); measured := true; tx := tx (conns s c) |}).
  destruct (pricing_trigger c k en p) as (k', l) eqn:P. cbn [fst snd].
  assert (PP : on_power k' = on_power k /\ on_status k' = on_status k /\ timer k' = timer k /\ prev k' = prev k /\ measured k' = true /\ tx k' = tx k /\
    ((l = [OMeter c ByEnergy] /\ on_energy k' = None /\ last_power k' = last_power k) \/
     (exists q, p = Some q /\ l = [OMeter c ByPower] /\ on_energy k' = on_energy k /\ last_power k' = Some q) \/
     (l = [] /\ on_energy k' = on_energy k /\ last_power k' = last_power k))).
  { unfold pricing_trigger in P. destruct (match on_energy k with Some x => x <=? en | None => false end).
    - inversion P; subst. cbn. repeat (split; [reflexivity |]). left. auto.
    - destruct (on_power k) as [x | ] eqn:OP.
      + destruct p as [q | ].
        * destruct (match last_power k with Some l => crossed l q x | None => true end); inversion P; subst; cbn; (split; [auto |]); repeat (split; [reflexivity |]); [right; left; exists q; auto | right; right; auto].
        * inversion P; subst. split; [auto |]. repeat (split; [reflexivity |]). right. right. auto.
      + inversion P; subst. split; [auto |]. repeat (split; [reflexivity |]). right. right. auto. }
  destruct PP as (E1 & E2 & E3 & E4 & E5 & E6 & E7).
  assert (NC : forall d t, ~ concerns e h (Measure c en p) d t) by nc.
  apply inv_upd; auto; [reflexivity | intros d; left; discriminate | | intros d w N X; destruct E7 as [(-> & _) | [(q & _ & -> & _) | (-> & _)]]; cbn in X; intuition congruence].
  constructor.
  - intros i. rewrite E6, ru_other by discriminate. apply (o_tx _ _ _ _ K).
  - intros x. destruct E7 as [(-> & -> & _) | [(q & _ & -> & -> & _) | (-> & -> & _)]].
    + split; [discriminate |]. intros X. inversion X; subst; [exfalso; eapply NC; eauto |]. exfalso. match goal with Y : ~ In _ _ |- _ => apply Y; now left end.
    + rewrite we_other; [apply (o_en _ _ _ _ K) | auto | discriminate | intros [X | []]; discriminate].
    + rewrite we_other; [apply (o_en _ _ _ _ K) | auto | discriminate | intros []].
  - intros x. rewrite E1, wp_other; [apply (o_po _ _ _ _ K) | auto | discriminate].
  - intros x. rewrite E2, ws_other; [apply (o_st _ _ _ _ K) | auto | discriminate].
  - intros x. destruct E7 as [(-> & _ & ->) | [(q & -> & -> & _ & ->) | (-> & _ & ->)]].
    + rewrite sp_other; [apply (o_la _ _ _ _ K) | discriminate | intros [X | []]; discriminate].
    + split; [intros X; inversion X; subst; apply sp_now; now left |]. intros X. inversion X; subst; auto. exfalso. match goal with Y : ~ In _ _ |- _ => apply Y; now left end.
    + rewrite sp_other; [apply (o_la _ _ _ _ K) | discriminate | intros []].
  - intros x. rewrite E4, se_other; [apply (o_pr _ _ _ _ K) | discriminate | discriminate].
  - rewrite E5. split; auto. intros _. exists en, p, l. now left.
  - intros x. rewrite E3, wt_other; [apply (o_ti _ _ _ _ K) | intros t'; now apply concerns_timer | discriminate | discriminate].
Qed.

Lemma status_inv e s h c st : inv e s h -> inv e (fst (status_changed s c st)) ((Status c st, snd (status_changed s c st)) :: h).
Proof.
  intros V. unfold status_changed. pose proof (V c) as K. assert (NC : forall d t, ~ concerns e h (Status c st) d t) by nc.
  destruct (on_status (conns s c)) as [l | ] eqn:O; cbn [fst snd].
  - assert (W : wants_status e h c l) by now apply (o_st _ _ _ _ K).
    assert (OL : forall d w, In (OMeter d w) (if existsb (Z.eqb st) l && match prev (conns s c) with Some x => negb (x =? st) | None => true end && measured (conns s c) then [OMeter c ByStatus] else []) -> d = c /\ w = ByStatus).
    { intros d w. match goal with |- In _ (if ?b then _ else _) -> _ => destruct b end; [intros [X | []]; inversion X; auto | intros []]. }
    apply inv_upd; auto; [reflexivity | intros d; left; discriminate | | intros d w N X; apply OL in X; tauto].
    constructor; cbn [tx on_energy on_power on_status last_power prev measured timer].
    + intros i. rewrite ru_other by discriminate. apply (o_tx _ _ _ _ K).
    + intros x. rewrite we_other; [apply (o_en _ _ _ _ K) | auto | discriminate | intros X; apply OL in X; destruct X; discriminate].
    + intros x. rewrite wp_other; [apply (o_po _ _ _ _ K) | auto | discriminate].
    + intros x. rewrite <- O, ws_other; [apply (o_st _ _ _ _ K) | auto | discriminate].
    + intros x. rewrite sp_other; [apply (o_la _ _ _ _ K) | discriminate | intros X; apply OL in X; destruct X; discriminate].
    + intros x. split; [intros X; inversion X; subst; now apply se_now with l |]. intros X. inversion X; subst; auto. exfalso.
      match goal with Y : forall _ _, Status _ _ = _ -> _ |- _ => now apply (Y st l eq_refl) end.
    + rewrite me_other; [apply (o_me _ _ _ _ K) | discriminate].
    + intros x. rewrite wt_other; [apply (o_ti _ _ _ _ K) | intros t'; now apply concerns_timer | discriminate | discriminate].
  - intros d. destruct (Z.eq_dec d c) as [-> | N]; [| apply frame; [auto | intros X; cbn in X; congruence | auto | intros w []]].
    assert (NW : forall ss, ~ wants_status e h c ss) by (intros ss X; apply (o_st _ _ _ _ K) in X; congruence).
    constructor.
    + intros i. rewrite ru_other by discriminate. apply (o_tx _ _ _ _ K).
    + intros x. rewrite we_other; [apply (o_en _ _ _ _ K) | auto | discriminate | intros []].
    + intros x. rewrite wp_other; [apply (o_po _ _ _ _ K) | auto | discriminate].
    + intros x. rewrite ws_other; [apply (o_st _ _ _ _ K) | auto | discriminate].
    + intros x. rewrite sp_other; [apply (o_la _ _ _ _ K) | discriminate | intros []].
    + intros x. rewrite se_other; [apply (o_pr _ _ _ _ K) | discriminate | intros; apply NW].
    + rewrite me_other; [apply (o_me _ _ _ _ K) | discriminate].
    + intros x. rewrite wt_other; [apply (o_ti _ _ _ _ K) | intros t'; now apply concerns_timer | discriminate | discriminate].
Qed.

Lemma time_inv e s h c now : inv e s h -> inv e (fst (time_up s c now)) ((TimeUp c now, snd (time_up s c now)) :: h).
Proof.
  intros V. unfold time_up. pose proof (V c) as K. assert (NC : forall d t, ~ concerns e h (TimeUp c now) d t) by nc.
  assert (NT : forall t', ~ sets_timer e h (TimeUp c now) c t') by (intros t'; now apply concerns_timer).
  assert (SAME : forall k l, (forall w, In (OMeter c w) l -> w = ByTime) -> on_energy k = on_energy (conns s c) -> on_power k = on_power (conns s c) -> on_status k = on_status (conns s c) ->
    last_power k = last_power (conns s c) -> prev k = prev (conns s c) -> measured k = measured (conns s c) -> tx k = tx (conns s c) ->
    (forall x, timer k = Some x <-> wants_time e ((TimeUp c now, l) :: h) c x) -> ok e ((TimeUp c now, l) :: h) c k).
  { intros k l M E1 E2 E3 E4 E5 E6 E7 T. constructor; auto.
    - intros i. rewrite E7, ru_other by discriminate. apply (o_tx _ _ _ _ K).
    - intros x. rewrite E1, we_other; [apply (o_en _ _ _ _ K) | auto | discriminate | intros X; apply M in X; discriminate].
    - intros x. rewrite E2, wp_other; [apply (o_po _ _ _ _ K) | auto | discriminate].
    - intros x. rewrite E3, ws_other; [apply (o_st _ _ _ _ K) | auto | discriminate].
    - intros x. rewrite E4, sp_other; [apply (o_la _ _ _ _ K) | discriminate | intros X; apply M in X; discriminate].
    - intros x. rewrite E5, se_other; [apply (o_pr _ _ _ _ K) | discriminate | discriminate].
    - rewrite E6, me_other; [apply (o_me _ _ _ _ K) | discriminate]. }
  pose proof (o_ti _ _ _ _ K) as T.
  destruct (timer (conns s c)) as [t | ] eqn:E; [destruct (Z.leb_spec t now) as [L | L] |]; cbn [fst snd].
  - apply inv_upd; auto; [reflexivity | intros d; left; discriminate | | intros d w N X; destruct (measured (conns s c)); cbn in X; intuition congruence].
    apply SAME; auto; [intros w X; destruct (measured (conns s c)); cbn in X; intuition congruence |].
    intros x. cbn. split; [discriminate |]. intros X. inversion X; subst; [exfalso; eapply NT; eauto |]. exfalso.
    match goal with Y : wants_time _ h _ _ |- _ => apply T in Y; inversion Y; subst end. match goal with Y : forall _, TimeUp _ _ = _ -> _ |- _ => specialize (Y now eq_refl); lia end.
  - intros d. destruct (Z.eq_dec d c) as [-> | N]; [| apply frame; [auto | intros X; cbn in X; congruence | auto | intros w []]].
    apply SAME; auto; [intros w [] |]. intros x. rewrite E. split.
    + intros X. inversion X; subst. apply wt_keep; auto; [now apply T | discriminate | intros now' Y; inversion Y; subst; auto].
    + intros X. inversion X; subst; [exfalso; eapply NT; eauto | now apply T].
  - intros d. destruct (Z.eq_dec d c) as [-> | N]; [| apply frame; [auto | intros X; cbn in X; congruence | auto | intros w []]].
    apply SAME; auto; [intros w [] |]. intros x. rewrite E. split; [discriminate |]. intros X. inversion X; subst; [exfalso; eapply NT; eauto | now apply T].
Qed.

Lemma stopped_inv e s h c : inv e s h -> inv e (fst (stopped s c)) ((Stopped c, snd (stopped s c)) :: h).
Proof.
  intros V. unfold stopped. pose proof (V c) as K. assert (NC : forall d t, ~ concerns e h (Stopped c) d t) by nc. cbn [fst snd].
  apply inv_upd; auto; [reflexivity | intros d; destruct (Z.eq_dec d c); [right; auto | left; congruence] |].
  constructor; cbn [tx on_energy on_power on_status last_power prev measured timer].
  - intros x. split; [discriminate |]. intros X. inversion X; subst. congruence.
  - intros x. split; [discriminate |]. intros X. inversion X; subst; [exfalso; eapply NC; eauto | congruence].
  - intros x. split; [discriminate |]. intros X. inversion X; subst; [exfalso; eapply NC; eauto | congruence].
  - intros x. split; [discriminate |]. intros X. inversion X; subst; [exfalso; eapply NC; eauto | congruence].
  - intros x. split; [discriminate |]. intros X. inversion X; subst; congruence.
  - intros x. split; [discriminate |]. intros X. inversion X; subst; congruence.
  - rewrite me_other; [apply (o_me _ _ _ _ K) | discriminate].
  - intros x. split; [discriminate |]. intros X. inversion X; subst; [| congruence]. exfalso. eapply concerns_timer; [apply NC | eassumption].
Qed.

Lemma started_inv e s h c i : inv e s h -> inv e (fst (step e s (Started c i))) ((Started c i, snd (step e s (Started c i))) :: h).
Proof.
  intros V. pose proof (V c) as K. assert (NC : forall d t, ~ concerns e h (Started c i) d t) by nc. cbn [step fst snd].
  apply inv_upd; auto; [reflexivity | intros d; left; discriminate |].
  constructor; cbn [tx on_energy on_power on_status last_power prev measured timer].
  - intros x. split; [intros X; inversion X; subst; constructor |]. intros X. inversion X; subst; auto. exfalso. match goal with Y : forall _, Started _ _ <> _ |- _ => now apply (Y i) end.
  - intros x. rewrite we_other; [apply (o_en _ _ _ _ K) | auto | discriminate | intros []].
  - intros x. rewrite wp_other; [apply (o_po _ _ _ _ K) | auto | discriminate].
  - intros x. rewrite ws_other; [apply (o_st _ _ _ _ K) | auto | discriminate].
  - intros x. rewrite sp_other; [apply (o_la _ _ _ _ K) | discriminate | intros []].
  - intros x. rewrite se_other; [apply (o_pr _ _ _ _ K) | discriminate | discriminate].
  - rewrite me_other; [apply (o_me _ _ _ _ K) | discriminate].
  - intros x. rewrite wt_other; [apply (o_ti _ _ _ _ K) | intros t'; now apply concerns_timer | discriminate | discriminate].
Qed.

Lemma happened_inv e s h : happened e s h -> inv e s h.
Proof.
  induction 1 as [ | s h o H IH].
  - intros c. constructor; cbn; try (intros x); split; try discriminate; try (intros X; inversion X; fail). intros (en & p & l & []).
  - destruct o.
    + now apply started_inv.
    + now apply stopped_inv.
    + now apply cost_inv.
    + now apply measure_inv.
    + now apply status_inv.
    + now apply time_inv.
Qed.
