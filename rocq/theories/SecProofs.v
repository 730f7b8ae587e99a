(** Proofs about certificates. *)
From Coq Require Import ZArith String List Bool Lia.
From Verif Require Import SecModel SecSpec.
Import ListNotations.
Local Open Scope Z_scope.

(** ** One call *)

Lemma sign_cases : forall c u tr csr s s' o, sign_certificate_req c u tr csr s = (s', o) ->
  (s' = s /\ forall u' r t', ~ In (OSign u' r t') o)
  \/ (k_awaited s = None /\ exists r country org common tpm,
        csr = Some r /\ configured c u country org common tpm
        /\ o = [OGenerate u country org common tpm; OSign (asked_for u) r tr]
        /\ s' = St (Some u) (k_attempt s) (k_timer s) (S (k_unanswered s)) (k_gone s) (k_cb s)).
Proof.
  intros c u tr csr s s' o H. unfold sign_certificate_req in H.
  destruct (k_awaited s) eqn:A. { left. inversion H; subst. split; [reflexivity|intros u' r t' []]. }
  destruct (names c u) as [[[common org] country] tpm] eqn:N.
  destruct common as [common|]; [|left; inversion H; subst; split; [reflexivity|intros u' r t' []]].
  destruct org as [org|]; [|left; inversion H; subst; split; [reflexivity|intros u' r t' []]].
  destruct country as [country|]; [|left; inversion H; subst; split; [reflexivity|intros u' r t' []]].
  destruct csr as [r|].
  - right. split; [reflexivity|]. exists r, country, org, common, tpm. cbn in H. inversion H; subst.
    split; [reflexivity|]. split; [|split; reflexivity].
    unfold configured, names in *. destruct u; inversion N; subst;
      repeat split; unfold or_else;
      [destruct (g_tpm c) as [[|]|]|destruct (g_tpm c) as [[|]|]|destruct (g_tpmleaf c) as [[|]|]|destruct (g_tpmleaf c) as [[|]|]
      |destruct (g_tpmleaf c) as [[|]|]|destruct (g_tpmleaf c) as [[|]|]]; intros Q; try discriminate Q; reflexivity.
  - left. cbn in H. destruct (k_cb s) eqn:Cb; inversion H; subst; (split; [reflexivity|]);
      intros u' r t' I; cbn in I; repeat (destruct I as [I|I]; [discriminate I|]); destruct I.
Qed.

Lemma or_else_is : forall o b, (b = true <-> o = Some true) -> or_else o false = b.
Proof.
  intros [[|]|] b H; cbn; destruct b; try reflexivity.
  - symmetry. apply (proj2 H). reflexivity.
  - discriminate (proj1 H eq_refl).
  - discriminate (proj1 H eq_refl).
Qed.

Lemma sign_goes : forall c u tr r s country org common tpm, k_awaited s = None ->
  configured c u country org common tpm ->
  snd (sign_certificate_req c u tr (Some r) s) = [OGenerate u country org common tpm; OSign (asked_for u) r tr].
Proof.
  intros c u tr r s country org common tpm A [C N]. unfold sign_certificate_req. rewrite A.
  assert (E : names c u = (Some common, Some org, Some country, tpm)).
  { unfold names. rewrite C. destruct u; destruct N as (N1 & N2 & N3); rewrite N1, N2, (or_else_is _ _ N3); reflexivity. }
  rewrite E. reflexivity.
Qed.

(** Nothing of this kind among what was put out. *)
Definition quiet (o : list out) : Prop := (forall u r t, ~ In (OSign u r t) o) /\ (forall b, ~ In (OTimer b) o).
Lemma quiet_nil : quiet [].
Proof. split; intros; intros []. Qed.
Ltac quiet := split; intros; let I := fresh in intros I; cbn in I; repeat (destruct I as [I|I]; [discriminate I|]); destruct I.

Lemma sign_quiet : forall c u tr csr s s' o, sign_certificate_req c u tr csr s = (s', o) -> forall b, ~ In (OTimer b) o.
Proof.
  intros c u tr csr s s' o H b I. unfold sign_certificate_req in H.
  destruct (k_awaited s). { inversion H; subst. destruct I. }
  destruct (names c u) as [[[[common|] [org|]] [country|]] tpm]; try (inversion H; subst; destruct I; fail).
  destruct csr as [r|]; cbn in H; [|destruct (k_cb s)]; inversion H; subst; cbn in I;
    repeat (destruct I as [I|I]; [discriminate I|]); destruct I.
Qed.

(** What a call does to the members. *)
Inductive effect (c : config) : op -> st -> st -> list out -> Prop :=
| EQuiet : forall o s outs, (match o with Conf _ | Lost | Signed _ _ _ | Stop => False | Fires _ => k_timer s = None | _ => True end) ->
    quiet outs -> effect c o s s outs
| EAsk : forall o s outs u r country org common tpm triggered,
    (match o with
     | Sign u' tr csr => u' = u /\ tr = triggered /\ csr = Some r
     | Expiry u' d csr => asked_for u' = u /\ triggered = false /\ csr = Some r /\ d < 30
                          /\ (u' = Station \/ g_v2g c = Some true)
     | _ => False
     end) ->
    k_awaited s = None -> configured c u country org common tpm ->
    outs = [OGenerate u country org common tpm; OSign (asked_for u) r triggered] ->
    effect c o s (St (Some u) (k_attempt s) (k_timer s) (S (k_unanswered s)) (k_gone s) (k_cb s)) outs
| EConfNone : forall ok s, k_unanswered s = O -> effect c (Conf ok) s s []
| EConfIgnored : forall ok s n, k_unanswered s = S n -> k_awaited s = None ->
    effect c (Conf ok) s (St None (k_attempt s) (k_timer s) n (k_gone s) (k_cb s)) []
| EConfBare : forall u s n, k_unanswered s = S n -> k_awaited s = Some u -> g_wait c = None \/ g_repeat c = None ->
    effect c (Conf true) s (St (Some u) (k_attempt s) (k_timer s) n (k_gone s) (k_cb s)) []
| EConfTimer : forall u s n w m, k_unanswered s = S n -> k_awaited s = Some u -> g_wait c = Some w -> g_repeat c = Some m ->
    k_attempt s <= m ->
    effect c (Conf true) s (St (Some u) (k_attempt s) (Some (backoff w (k_attempt s))) n (k_gone s) (k_cb s))
           [OTimer (backoff w (k_attempt s))]
| EConfEnough : forall u s n m, k_unanswered s = S n -> k_awaited s = Some u -> g_repeat c = Some m -> m < k_attempt s ->
    effect c (Conf true) s (St None 1 None n (k_gone s) (k_cb s)) []
| EConfRejected : forall u s n, k_unanswered s = S n -> k_awaited s = Some u ->
    effect c (Conf false) s (St None 1 (k_timer s) n (k_gone s) (k_cb s)) []
| ELost : forall s, effect c Lost s (St (k_awaited s) (k_attempt s) (k_timer s) (pred (k_unanswered s)) (k_gone s) (k_cb s)) []
| EGone : forall csr s b, k_timer s = Some b -> k_awaited s = None ->
    effect c (Fires csr) s (St None (k_attempt s + 1) None (k_unanswered s) true (k_cb s)) []
| EFailed : forall csr s b u outs, k_timer s = Some b -> k_awaited s = Some u -> quiet outs ->
    effect c (Fires csr) s (St None (k_attempt s + 1) None (k_unanswered s) (k_gone s) (k_cb s)) outs
| ERepeat : forall r s b u country org common tpm, k_timer s = Some b -> k_awaited s = Some u ->
    configured c u country org common tpm ->
    effect c (Fires (Some r)) s (St (Some u) (k_attempt s + 1) None (S (k_unanswered s)) (k_gone s) (k_cb s))
           [OGenerate u country org common tpm; OSign (asked_for u) r false]
| ESigned : forall t chain r s outs, quiet outs ->
    effect c (Signed t chain r) s (St None 1 None (k_unanswered s) (k_gone s) (k_cb s)) outs
| EStop : forall s, effect c Stop s (St (k_awaited s) (k_attempt s) None (k_unanswered s) (k_gone s) (k_cb s)) [].

Lemma st_eta : forall s, St (k_awaited s) (k_attempt s) (k_timer s) (k_unanswered s) (k_gone s) (k_cb s) = s.
Proof. intros []. reflexivity. Qed.

Lemma exec_effect : forall c o s s' outs, exec c o s = (s', outs) -> effect c o s s' outs.
Proof.
  intros c o s s' outs H. destruct o as [u tr csr|u d csr|ok| |csr|t chain r|t cert r|h r|l found|]; cbn [exec] in H.
  - pose proof (sign_quiet _ _ _ _ _ _ _ H) as Qt. destruct (sign_cases _ _ _ _ _ _ _ H) as [[-> N]|(A & r & co & og & cm & tp & -> & G & -> & ->)].
    + apply EQuiet; [exact Logic.I|split; assumption].
    + eapply EAsk; [|exact A|exact G|reflexivity]. repeat split.
  - unfold check_expiry in H.
    assert (K : (s' = s /\ quiet outs) \/ (d < 30 /\ (u = Station \/ g_v2g c = Some true)
                 /\ sign_certificate_req c (asked_for u) false csr s = (s', outs))).
    { destruct u; cbn [asked_for]; try destruct (g_v2g c) as [[|]|]; cbn [or_else] in H;
        try (left; inversion H; subst; split; [reflexivity|apply quiet_nil]; fail);
        (destruct (d <? 30) eqn:D; [right; apply Z.ltb_lt in D; repeat split; auto
                                   |left; inversion H; subst; split; [reflexivity|apply quiet_nil]]). }
    destruct K as [[-> Q]|(D & U & K)]; [apply EQuiet; [exact Logic.I|exact Q]|].
    pose proof (sign_quiet _ _ _ _ _ _ _ K) as Qt.
    destruct (sign_cases _ _ _ _ _ _ _ K) as [[-> N]|(A & r & co & og & cm & tp & -> & G & -> & ->)].
    + apply EQuiet; [exact Logic.I|split; assumption].
    + eapply EAsk; [|exact A|exact G|reflexivity]. repeat split; auto.
  - destruct (k_unanswered s) as [|n] eqn:U. { inversion H; subst. apply EConfNone. exact U. }
    unfold seqc, handle_sign_response in H. cbn in H. destruct (k_awaited s) as [u|] eqn:A.
    + destruct ok.
      * destruct (g_wait c) as [w|] eqn:W; [destruct (g_repeat c) as [m|] eqn:R|].
        -- destruct (m <? k_attempt s) eqn:L; cbn in H; inversion H; subst.
           ++ apply Z.ltb_lt in L. eapply EConfEnough; eauto.
           ++ apply Z.ltb_ge in L. eapply EConfTimer; eauto.
        -- cbn in H. inversion H; subst. rewrite ?A. apply EConfBare; auto.
        -- cbn in H. inversion H; subst. rewrite ?A. apply EConfBare; auto.
      * cbn in H. inversion H; subst. eapply EConfRejected; eauto.
    + cbn in H. inversion H; subst. rewrite ?A. apply EConfIgnored; auto.
  - inversion H; subst. apply ELost.
  - unfold timer_fires in H. destruct (k_timer s) as [b|] eqn:T.
    2:{ inversion H; subst. apply EQuiet; [exact T|apply quiet_nil]. }
    destruct (k_awaited s) as [u|] eqn:A.
    + unfold seqc, set_timer, set_attempt, set_awaited in H. cbn [k_awaited k_attempt k_timer k_unanswered k_gone k_cb] in H.
      match type of H with context [sign_certificate_req c u false csr ?x] =>
        destruct (sign_certificate_req c u false csr x) as [s2 o2] eqn:K end.
      cbn in H. inversion H; subst. pose proof (sign_quiet _ _ _ _ _ _ _ K) as Qt.
      destruct (sign_cases _ _ _ _ _ _ _ K) as [[-> N]|(_ & r & co & og & cm & tp & -> & G & -> & ->)].
      * eapply EFailed; eauto. split; assumption.
      * cbn [k_awaited k_attempt k_timer k_unanswered k_gone k_cb]. eapply ERepeat; eauto.
    + cbn in H. inversion H; subst. rewrite ?A. eapply EGone; eauto.
  - unfold handle_certificate_signed, security_event, seqc, put, skip in H.
    destruct (is_installed r), (is_station (signed_use t)), (or_else (g_links c) false), (g_profile c =? 3), (k_cb s) eqn:Cb;
      cbn in H; rewrite ?Cb in H; cbn in H; inversion H; subst; rewrite <- ?Cb; apply ESigned; quiet.
  - unfold handle_install, security_event, seqc, put, skip in H. destruct (should_allow c t), (install_status r), (k_cb s) eqn:Cb;
      cbn in H; rewrite ?Cb in H; cbn in H; inversion H; subst; apply EQuiet; try exact Logic.I; quiet.
  - unfold handle_delete, security_event, seqc, put, skip in H. destruct (delete_status r), (k_cb s) eqn:Cb;
      cbn in H; rewrite ?Cb in H; cbn in H; inversion H; subst; apply EQuiet; try exact Logic.I; quiet.
  - unfold handle_ids, seqc, put in H. destruct found; cbn in H; inversion H; subst; apply EQuiet; try exact Logic.I; quiet.
  - inversion H; subst. apply EStop.
Qed.

Lemma step_effect : forall s x s' outs, step s x = (s', outs) ->
  (k_gone s = true /\ s' = s /\ outs = []) \/ (k_gone s = false /\ effect (fst x) (snd x) s s' outs).
Proof.
  intros s x s' outs H. unfold step in H. destruct (k_gone s).
  - left. inversion H; auto.
  - right. split; [reflexivity|]. apply exec_effect. exact H.
Qed.
