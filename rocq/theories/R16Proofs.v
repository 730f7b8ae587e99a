(** Proofs about resets, remote stops and unlocking. *)
From Coq Require Import ZArith List Bool Lia.
From Verif Require Import R16Model R16Spec.
Import ListNotations.
Local Open Scope list_scope.
Local Open Scope Z_scope.

Lemma connectors_in k c : In c (connectors k) <-> 1 <= c <= Z.of_nat k.
Proof.
  unfold connectors. rewrite in_map_iff. split.
  - intros (x & <- & I). apply in_seq in I. lia.
  - intros H. exists (Z.to_nat c). split; [lia |]. apply in_seq. lia.
Qed.

Lemma op_dec_started o c : {o = Started c} + {o <> Started c}.
Proof. destruct o; try (right; discriminate). destruct (Z.eq_dec c0 c); [left; congruence | right; congruence]. Qed.

Record inv (e : env) (s : state) (h : list op) : Prop := {
  i_dead : dead s = false;
  i_on : forall c i, active s c = Some i <-> on h c i;
  i_ch : forall c, charging s c = true <-> charges h c;
  i_no : th s = NoThread <-> ~ granted e h;
  i_wait : forall t, th s = Waiting t <-> waits e h t
}.

Lemma on_fun h c i j : on h c i -> on h c j -> i = j.
Proof.
  intros A. revert j. induction A; intros j B; inversion B; subst; auto; try congruence.
  all: exfalso; match goal with H : forall _, _ <> _ |- _ => eapply H; reflexivity end.
Qed.

Lemma quiet_iff e s h : inv e s h -> all_stopped e s = true <-> quiet e h.
Proof.
  intros V. unfold all_stopped, quiet. rewrite forallb_forall. split.
  - intros H c R. specialize (H c (proj2 (connectors_in _ _) R)). apply negb_true_iff, orb_false_iff in H. destruct H as (A & B). split.
    + intros i X. apply (i_on _ _ _ V) in X. rewrite X in A. discriminate.
    + intros X. apply (i_ch _ _ _ V) in X. congruence.
  - intros H c I. apply connectors_in in I. destruct (H c I) as (A & B). apply negb_true_iff, orb_false_iff. split.
    + destruct (active s c) as [i | ] eqn:X; auto. exfalso. apply (A i). now apply (i_on _ _ _ V).
    + destruct (charging s c) eqn:X; auto. exfalso. apply B. now apply (i_ch _ _ _ V).
Qed.

Lemma granted_cons e o h : granted e (o :: h) <-> (exists t, grants e o t) \/ granted e h.
Proof.
  split.
  - intros (o' & t & [-> | I] & G); [left; eauto | right; exists o', t; auto].
  - intros [(t & G) | (o' & t & I & G)]; [exists o, t | exists o', t]; split; auto; [now left | now right].
Qed.
Lemma waits_granted e h t : waits e h t -> granted e h.
Proof. induction 1; apply granted_cons; [left; eauto | right; auto]. Qed.

(** The parts of the state that no reset touches. *)
Lemma on_other h o c i : (forall d, o <> Started d) -> (forall d, o <> Stopped d) -> (forall d t, o <> Confirmed d t) -> on (o :: h) c i <-> on h c i.
Proof.
  intros A B C. split.
  - intros X. inversion X; subst; auto; exfalso; [eapply A | eapply C]; reflexivity.
  - intros X. apply on_keep; auto.
Qed.
Lemma ch_other h o c : (forall d b, o <> Status d b) -> charges (o :: h) c <-> charges h c.
Proof. intros A. split; [intros X; inversion X; subst; auto; exfalso; eapply A; reflexivity | intros X; apply ch_keep; auto]. Qed.
Lemma granted_other e h o : (forall t, ~ grants e o t) -> granted e (o :: h) <-> granted e h.
Proof. intros A. rewrite granted_cons. split; [intros [(t & G) | G]; auto; now apply A in G | auto]. Qed.
Lemma waits_other e h o t : (forall t', ~ grants e o t') -> o <> TimeOut -> o <> StopConf -> o <> Wake -> waits e (o :: h) t <-> waits e h t.
Proof.
  intros A B C D. split.
  - intros X. inversion X; subst; auto. exfalso. now apply (A t).
  - intros X. apply w_keep; auto. intros [E | E]; congruence.
Qed.
Lemma no_grant e o : (forall t b, o <> Reset t b) -> forall t, ~ grants e o t.
Proof. intros A t (B & _). now apply (A t true). Qed.

Lemma on_started h c d i : on (Started d :: h) c i <-> (if c =? d then i = None else on h c i).
Proof.
  destruct (Z.eqb_spec c d); split.
  - subst. intros X; inversion X; subst; auto; congruence.
  - intros ->. subst. constructor.
  - intros X; inversion X; subst; auto; congruence.
  - intros X. apply on_keep; auto; congruence.
Qed.
Lemma on_stopped h c d i : on (Stopped d :: h) c i <-> (if c =? d then False else on h c i).
Proof.
  destruct (Z.eqb_spec c d); split.
  - subst. intros X; inversion X; subst; congruence.
  - tauto.
  - intros X; inversion X; subst; auto; congruence.
  - intros X. apply on_keep; auto; congruence.
Qed.
Lemma on_confirmed h c d tx i : on (Confirmed d tx :: h) c i <-> (if c =? d then i = Some tx /\ exists j, on h c j else on h c i).
Proof.
  destruct (Z.eqb_spec c d); split.
  - subst. intros X; inversion X; subst; eauto. exfalso. match goal with H : forall _, Confirmed _ _ <> _ |- _ => now apply (H tx) end.
  - intros (-> & j & J). subst. now apply on_conf with j.
  - intros X; inversion X; subst; auto; congruence.
  - intros X. apply on_keep; auto; congruence.
Qed.
Lemma charges_status h c d b : charges (Status d b :: h) c <-> (if c =? d then b = true else charges h c).
Proof.
  destruct (Z.eqb_spec c d); split.
  - subst. intros X; inversion X; subst; auto. exfalso. match goal with H : forall _, Status _ _ <> _ |- _ => now apply (H b) end.
  - intros ->. subst. constructor.
  - intros X; inversion X; subst; auto; congruence.
  - intros X. apply ch_keep; auto; congruence.
Qed.

Lemma grants_reset e t t' b : grants e (Reset t b) t' <-> t' = t /\ asks e && resets e && b = true.
Proof. unfold grants. rewrite !andb_true_iff. split; [intros (A & B & C); injection A as -> ->; auto | intros (-> & (A & B) & ->); auto]. Qed.

Lemma plain e s h o s' : inv e s h -> th s' = th s -> dead s' = false ->
  (forall t, ~ grants e o t) -> o <> TimeOut -> o <> StopConf -> o <> Wake ->
  (forall c i, active s' c = Some i <-> on (o :: h) c i) -> (forall c, charging s' c = true <-> charges (o :: h) c) -> inv e s' (o :: h).
Proof.
  intros V T D G A B C O H. constructor; auto.
  - rewrite T, granted_other by auto. apply (i_no _ _ _ V).
  - intros t. rewrite T, waits_other by auto. apply (i_wait _ _ _ V).
Qed.

Lemma same_on e s h o : inv e s h -> (forall d, o <> Started d) -> (forall d, o <> Stopped d) -> (forall d t, o <> Confirmed d t) ->
  forall c i, active s c = Some i <-> on (o :: h) c i.
Proof. intros V A B C c i. rewrite on_other by auto. apply (i_on _ _ _ V). Qed.
Lemma same_ch e s h o : inv e s h -> (forall d b, o <> Status d b) -> forall c, charging s c = true <-> charges (o :: h) c.
Proof. intros V A c. rewrite ch_other by auto. apply (i_ch _ _ _ V). Qed.

(** The thread looks. *)
Lemma look_inv e s h o : inv e s h -> o = StopConf \/ o = Wake -> inv e (fst (look e s)) (o :: h).
Proof.
  intros V O. assert (G : forall t, ~ grants e o t) by (apply no_grant; intros; destruct O; subst; discriminate).
  assert (ON : forall c i, active s c = Some i <-> on (o :: h) c i) by (apply same_on with e; auto; intros; destruct O; subst; discriminate).
  assert (CH : forall c, charging s c = true <-> charges (o :: h) c) by (apply same_ch with e; auto; intros; destruct O; subst; discriminate).
  assert (NT : o <> TimeOut) by (destruct O; subst; discriminate).
  pose proof (quiet_iff e s h V) as Q. pose proof (i_wait _ _ _ V) as W. pose proof (i_no _ _ _ V) as N.
  unfold look. destruct (th s) as [ | t | ] eqn:T.
  - constructor; auto; cbn [fst]; [apply (i_dead _ _ _ V) | rewrite granted_other by auto; rewrite T; apply N |].
    intros t. rewrite T. split; [discriminate |]. intros X. exfalso. inversion X; subst; [eapply G; eauto | match goal with Y : waits e h _ |- _ => apply W in Y; discriminate end].
  - destruct (all_stopped e s) eqn:A.
    + constructor; cbn [fst set_th th active charging dead]; auto; [apply (i_dead _ _ _ V) | |].
      * rewrite granted_other by auto. split; [discriminate |]. intros X. exfalso. apply X. apply (waits_granted e h t). now apply W.
      * intros t'. split; [discriminate |]. intros X. exfalso. inversion X; subst; [eapply G; eauto |].
        match goal with H : _ -> ~ quiet _ _ |- _ => apply H; auto; now apply Q end.
    + constructor; cbn [fst]; auto; [apply (i_dead _ _ _ V) | rewrite granted_other by auto; rewrite T; apply N |].
      intros t'. rewrite T. split.
      * intros E. apply w_keep; auto; [now apply W |]. intros _ X. apply Q in X. congruence.
      * intros X. inversion X; subst; [exfalso; eapply G; eauto | now apply W].
  - constructor; auto; cbn [fst]; [apply (i_dead _ _ _ V) | rewrite granted_other by auto; rewrite T; apply N |].
    intros t. rewrite T. split; [discriminate |]. intros X. exfalso. inversion X; subst; [eapply G; eauto | match goal with Y : waits e h _ |- _ => apply W in Y; discriminate end].
Qed.

Lemma step_inv e s h o : inv e s h -> alive e (o :: h) -> inv e (fst (step e s o)) (o :: h).
Proof.
  intros V L. inversion L as [ | ? ? L' ND NG]; subst. unfold step. rewrite (i_dead _ _ _ V).
  pose proof (i_wait _ _ _ V) as W. pose proof (i_no _ _ _ V) as N. pose proof (quiet_iff e s h V) as Q.
  destruct o as [t b | tx | c a | c | c tx | c | c ch | | | | ].
  - assert (ON : forall c i, active s c = Some i <-> on (Reset t b :: h) c i) by (apply same_on with e; auto; discriminate).
    assert (CH : forall c, charging s c = true <-> charges (Reset t b :: h) c) by (apply same_ch with e; auto; discriminate).
    unfold reset. destruct (asks e && resets e && b) eqn:G.
    + assert (NN : ~ granted e h) by (apply (NG t); apply grants_reset; auto).
      assert (T : th s = NoThread) by now apply N.
      assert (GG : granted e (Reset t b :: h)) by (apply granted_cons; left; exists t; apply grants_reset; auto).
      rewrite T. unfold look. cbn [th set_th]. assert (AS : all_stopped e (set_th s (Waiting t)) = all_stopped e s) by reflexivity. rewrite AS.
      destruct (all_stopped e s) eqn:A.
      * constructor; cbn [fst set_th th active charging dead]; auto; [apply (i_dead _ _ _ V) | split; [discriminate | tauto] |].
        intros t'. split; [discriminate |]. intros X. exfalso. inversion X; subst; [match goal with Y : ~ quiet _ _ |- _ => apply Y; now apply Q end | apply NN; eapply waits_granted; eauto].
      * constructor; cbn [fst set_th th active charging dead]; auto; [apply (i_dead _ _ _ V) | split; [discriminate | tauto] |].
        intros t'. split.
        -- intros E. injection E as <-. apply w_new; [apply grants_reset; auto |]. intros X. apply Q in X. congruence.
        -- intros X. inversion X; subst; [| exfalso; apply NN; eapply waits_granted; eauto].
           match goal with Y : grants _ _ _ |- _ => apply grants_reset in Y; destruct Y as (-> & _); reflexivity end.
    + apply plain with s; auto; try discriminate; [apply (i_dead _ _ _ V) |]. intros t' X. apply grants_reset in X. destruct X. congruence.
  - apply plain with s; [exact V | reflexivity | first [reflexivity | exact (i_dead e s h V)] | apply no_grant; discriminate | discriminate | discriminate | discriminate | apply same_on with e; auto; discriminate | apply same_ch with e; auto; discriminate].
  - apply plain with s; [exact V | reflexivity | first [reflexivity | exact (i_dead e s h V)] | apply no_grant; discriminate | discriminate | discriminate | discriminate | apply same_on with e; auto; discriminate | apply same_ch with e; auto; discriminate].
  - apply plain with s; [exact V | reflexivity | first [reflexivity | exact (i_dead e s h V)] | apply no_grant; discriminate | discriminate | discriminate | discriminate | | cbn; apply same_ch with e; auto; discriminate].
    intros d i. rewrite on_started. cbn. unfold upd. destruct (d =? c); [split; congruence | apply (i_on _ _ _ V)].
  - apply plain with s; auto; try discriminate; try (apply no_grant; discriminate).
    + cbn. destruct (active s c); reflexivity.
    + cbn. destruct (active s c); first [reflexivity | apply (i_dead _ _ _ V)].
    + intros d i. rewrite on_confirmed. cbn. destruct (active s c) as [j | ] eqn:A; cbn; unfold upd.
      * destruct (Z.eqb_spec d c); [| apply (i_on _ _ _ V)]. subst. split; [intros X; split; [congruence |]; exists j; now apply (i_on _ _ _ V) | intros (-> & _); auto].
      * destruct (Z.eqb_spec d c); [| apply (i_on _ _ _ V)]. subst. rewrite A. split; [discriminate |]. intros (_ & j & J). apply (i_on _ _ _ V) in J. congruence.
    + intros d. rewrite ch_other by discriminate. cbn. destruct (active s c); apply (i_ch _ _ _ V).
  - apply plain with s; [exact V | reflexivity | first [reflexivity | exact (i_dead e s h V)] | apply no_grant; discriminate | discriminate | discriminate | discriminate | | cbn; apply same_ch with e; auto; discriminate].
    intros d i. rewrite on_stopped. cbn. unfold upd. destruct (d =? c); [split; [discriminate | tauto] | apply (i_on _ _ _ V)].
  - apply plain with s; [exact V | reflexivity | first [reflexivity | exact (i_dead e s h V)] | apply no_grant; discriminate | discriminate | discriminate | discriminate | cbn; apply same_on with e; auto; discriminate |].
    intros d. rewrite charges_status. cbn. unfold upd. destruct (d =? c); [tauto | apply (i_ch _ _ _ V)].
  - apply look_inv; auto.
  - apply look_inv; auto.
  - assert (ON : forall c i, active s c = Some i <-> on (TimeOut :: h) c i) by (apply same_on with e; auto; discriminate).
    assert (CH : forall c, charging s c = true <-> charges (TimeOut :: h) c) by (apply same_ch with e; auto; discriminate).
    assert (G : forall t, ~ grants e TimeOut t) by (apply no_grant; discriminate).
    assert (NW : forall t, ~ waits e (TimeOut :: h) t) by (intros t X; inversion X; subst; [eapply G; eauto | congruence]).
    destruct (th s) as [ | t | ] eqn:T; constructor; cbn [fst set_th th active charging dead]; auto; try apply (i_dead _ _ _ V).
    all: try (rewrite granted_other by auto). all: try rewrite T. all: try apply N.
    all: try (intros t'; split; [discriminate | intros X; now apply NW in X]).
    split; [discriminate |]. intros X. exfalso. apply X. apply (waits_granted e h t). now apply W.
  - congruence.
Qed.

Lemma alive_tail e o h : alive e (o :: h) -> alive e h.
Proof. now inversion 1. Qed.

Lemma happened_inv e s h l : happened e s h l -> alive e h -> inv e s h.
Proof.
  induction 1; intros L.
  - constructor; cbn; auto.
    + split; [discriminate | inversion 1].
    + split; [discriminate | inversion 1].
    + split; auto. intros _ (o & t & [] & _).
    + split; [discriminate | inversion 1].
  - apply step_inv; auto. apply IHhappened. eapply alive_tail; eauto.
Qed.
