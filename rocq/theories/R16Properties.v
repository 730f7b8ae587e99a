(** C119: resets, remote stops and unlocking in OCPP 1.6. *)
From Coq Require Import ZArith List Bool Lia.
From Verif Require Import R16Model R16Spec R16Proofs.
Import ListNotations.
Local Open Scope list_scope.
Local Open Scope Z_scope.

Lemma stop_all_in e s r o : In o (stop_all e s r) <-> exists c i, 1 <= c <= Z.of_nat (n e) /\ active s c = Some i /\ o = OStopTx c r.
Proof.
  unfold stop_all. rewrite in_flat_map. split.
  - intros (c & I & H). apply connectors_in in I. destruct (active s c) as [i | ] eqn:A; cbn in H; [| tauto]. destruct H as [<- | []]. eauto.
  - intros (c & i & R & A & ->). exists c. split; [now apply connectors_in |]. rewrite A. now left.
Qed.
Lemma stop_all_do e s r : filter is_do (stop_all e s r) = [].
Proof. unfold stop_all. induction (connectors (n e)); cbn; auto. destruct (is_some (active s a)); cbn; auto. Qed.
Lemma stop_all_reply e s r : filter is_reply (stop_all e s r) = [].
Proof. unfold stop_all. induction (connectors (n e)); cbn; auto. destruct (is_some (active s a)); cbn; auto. Qed.
Lemma look_out e s h t : inv e s h -> In (ODoReset t) (snd (look e s)) <-> waits e h t /\ quiet e h.
Proof.
  intros V. rewrite <- (quiet_iff e s h V). rewrite <- (i_wait _ _ _ V t). unfold look. destruct (th s) as [ | t' | ] eqn:T; cbn.
  - split; [tauto | intros (X & _); discriminate].
  - destruct (all_stopped e s); cbn; split; [intros [X | []]; inversion X; auto | intros (X & _); inversion X; auto | tauto | intros (_ & X); discriminate].
  - split; [tauto | intros (X & _); discriminate].
Qed.
Lemma look_only e s o : In o (snd (look e s)) -> exists t, o = ODoReset t.
Proof. unfold look. destruct (th s); cbn; try tauto. destruct (all_stopped e s); cbn; [intros [<- | []]; eauto | tauto]. Qed.

(** A reset is asked of the application, and accepted iff it allows it; then, and only then, every transaction is asked to stop, with
    the reason that fits. *)
Theorem C119_answer e s h l t allowed b : happened e s h l -> alive e h ->
  In (OReset b) (snd (step e s (Reset t allowed))) <-> b = (asks e && resets e && allowed).
Proof.
  intros H L. pose proof (happened_inv _ _ _ _ H L) as V. unfold step. rewrite (i_dead _ _ _ V). unfold reset.
  assert (A : forall o, In o (if asks e && resets e then [OAsk t] else []) -> o = OAsk t) by (intros o; destruct (asks e && resets e); cbn; [intros [<- | []]; auto | tauto]).
  destruct (asks e && resets e && allowed) eqn:G.
  - destruct (th s).
    + destruct (look e (set_th s (Waiting t))) as (s', l') eqn:K. cbn [snd]. rewrite in_app_iff. cbn [In]. rewrite in_app_iff. split; [| intros ->; auto].
      intros [X | [X | [X | X]]]; [apply A in X; discriminate | now inversion X | apply stop_all_in in X; destruct X as (? & ? & _ & _ & X); discriminate |].
      pose proof (look_only e (set_th s (Waiting t)) (OReset b)) as Y. rewrite K in Y. destruct (Y X) as (? & Z). discriminate.
    + cbn [snd]. rewrite in_app_iff. cbn [In]. split; [| intros ->; auto]. intros [X | [X | [X | []]]]; [apply A in X; discriminate | now inversion X | discriminate].
    + cbn [snd]. rewrite in_app_iff. cbn [In]. split; [| intros ->; auto]. intros [X | [X | [X | []]]]; [apply A in X; discriminate | now inversion X | discriminate].
  - cbn [snd]. rewrite in_app_iff. cbn [In]. split; [| intros ->; auto]. intros [X | [X | []]]; [apply A in X; discriminate | now inversion X].
Qed.
Print Assumptions C119_answer.
Theorem C119_stops e s h l t allowed : happened e s h l -> alive e (Reset t allowed :: h) ->
  forall c r, In (OStopTx c r) (snd (step e s (Reset t allowed))) <->
    grants e (Reset t allowed) t /\ 1 <= c <= Z.of_nat (n e) /\ (exists i, on h c i) /\ r = match t with Soft => SoftReset | Hard => HardReset end.
Proof.
  intros H L c r. pose proof (happened_inv _ _ _ _ H (alive_tail _ _ _ L)) as V. unfold step. rewrite (i_dead _ _ _ V). unfold reset.
  assert (A : forall o, In o (if asks e && resets e then [OAsk t] else []) -> o = OAsk t) by (intros o; destruct (asks e && resets e); cbn; [intros [<- | []]; auto | tauto]).
  rewrite grants_reset. destruct (asks e && resets e && allowed) eqn:G.
  - assert (T : th s = NoThread). { apply (i_no _ _ _ V). inversion L; subst. apply (H4 t). apply grants_reset. auto. } rewrite T.
    destruct (look e (set_th s (Waiting t))) as (s', l') eqn:K. cbn [snd]. rewrite in_app_iff. cbn [In]. rewrite in_app_iff, stop_all_in. split.
    + intros [X | [X | [X | X]]]; [apply A in X; discriminate | discriminate | |].
      * destruct X as (c' & i & R & X & E). inversion E; subst. repeat split; auto; try lia. exists i. now apply (i_on _ _ _ V).
      * pose proof (look_only e (set_th s (Waiting t)) (OStopTx c r)) as Y. rewrite K in Y. destruct (Y X) as (? & Z). discriminate.
    + intros (_ & R & (i & I) & ->). right. right. left. exists c, i. repeat split; try lia. now apply (i_on _ _ _ V).
  - cbn [snd]. rewrite in_app_iff. cbn [In]. split; [intros [X | [X | []]]; [apply A in X; discriminate | discriminate] | intros ((_ & X) & _); discriminate].
Qed.
Print Assumptions C119_stops.

(** The station is reset when a reset was accepted and then no connector has a transaction or charges, as found at once, or at a
    StopTransaction.conf (or a spurious wake-up) - or when the time is over. *)
Theorem C119_when e s h l o t : happened e s h l -> alive e (o :: h) ->
  In (ODoReset t) (snd (step e s o)) <->
    grants e o t /\ quiet e h \/ waits e h t /\ ((o = StopConf \/ o = Wake) /\ quiet e h \/ o = TimeOut).
Proof.
  intros H L. pose proof (happened_inv _ _ _ _ H (alive_tail _ _ _ L)) as V. unfold step. rewrite (i_dead _ _ _ V).
  inversion L as [ | ? ? L' ND NG]; subst.
  assert (LK : o = StopConf \/ o = Wake -> In (ODoReset t) (snd (look e s)) <->
    grants e o t /\ quiet e h \/ waits e h t /\ ((o = StopConf \/ o = Wake) /\ quiet e h \/ o = TimeOut)).
  { intros O. rewrite (look_out e s h t V). split; [intros (X & Y); right; split; auto |].
    intros [((X & _) & Y) | (X & [(_ & Y) | Y])]; auto; exfalso; destruct O; subst; discriminate. }
  destruct o as [t' b | tx | c a | c | c tx | c | c ch | | | | ].
  - unfold reset. rewrite grants_reset.
    assert (A : forall o, In o (if asks e && resets e then [OAsk t'] else []) -> o = OAsk t') by (intros o; destruct (asks e && resets e); cbn; [intros [<- | []]; auto | tauto]).
    destruct (asks e && resets e && b) eqn:G.
    + assert (T : th s = NoThread). { apply (i_no _ _ _ V). apply (NG t'). apply grants_reset. auto. } rewrite T.
      destruct (look e (set_th s (Waiting t'))) as (s', l') eqn:K. cbn [snd]. rewrite in_app_iff. cbn [In]. rewrite in_app_iff, stop_all_in.
      unfold look in K. cbn [th set_th] in K. assert (AS : all_stopped e (set_th s (Waiting t')) = all_stopped e s) by reflexivity. rewrite AS in K.
      pose proof (quiet_iff e s h V) as Q. split.
      * intros [X | [X | [X | X]]]; [apply A in X; discriminate | discriminate | destruct X as (? & ? & _ & _ & X); discriminate |].
        destruct (all_stopped e s); inversion K; subst; [| destruct X]. destruct X as [X | []]. inversion X; subst. left. split; auto. now apply Q.
      * intros [((-> & _) & X) | (X & _)].
        -- apply Q in X. rewrite X in K. inversion K; subst. right. right. right. now left.
        -- exfalso. apply (NG t'); [apply grants_reset; auto | eapply waits_granted; eauto].
    + cbn [snd]. rewrite in_app_iff. cbn [In]. split; [intros [X | [X | []]]; [apply A in X; discriminate | discriminate] |].
      intros [((_ & X) & _) | (_ & [([X | X] & _) | X])]; discriminate.
  - cbn. split; [destruct (0 <? connector_of e s tx); cbn; intuition discriminate |]. intros [((X & _) & _) | (_ & [([X | X] & _) | X])]; discriminate.
  - cbn [snd]. split; [| intros [((X & _) & _) | (_ & [([X | X] & _) | X])]; discriminate]. unfold unlock_connector. rewrite in_app_iff. cbn [In].
    intros [X | [X | X]]; [destruct ((0 <? c) && (c <=? Z.of_nat (n e)) && unlocks e); cbn in X; intuition discriminate | discriminate |].
    destruct (if (0 <? c) && (c <=? Z.of_nat (n e)) && unlocks e then a else NotSupported); try (destruct X; fail).
    destruct ((c <? 0) || (Z.of_nat (n e) <? c)); [cbn in X; intuition discriminate |]. destruct ((0 <? c) && (c <=? Z.of_nat (n e)) && is_some (active s c) && stop_if_unsupported e); cbn in X; intuition discriminate.
  - cbn. split; [tauto |]. intros [((X & _) & _) | (_ & [([X | X] & _) | X])]; discriminate.
  - cbn. split; [tauto |]. intros [((X & _) & _) | (_ & [([X | X] & _) | X])]; discriminate.
  - cbn. split; [tauto |]. intros [((X & _) & _) | (_ & [([X | X] & _) | X])]; discriminate.
  - cbn. split; [tauto |]. intros [((X & _) & _) | (_ & [([X | X] & _) | X])]; discriminate.
  - apply LK; auto.
  - apply LK; auto.
  - pose proof (i_wait _ _ _ V t) as W. destruct (th s) as [ | t' | ] eqn:T; cbn [snd In].
    + split; [tauto |]. intros [((X & _) & _) | (X & _)]; [discriminate | apply W in X; discriminate].
    + split; [intros [X | []]; inversion X; subst; right; split; auto; now apply W |].
      intros [((X & _) & _) | (X & _)]; [discriminate | apply W in X; inversion X; auto].
    + split; [tauto |]. intros [((X & _) & _) | (X & _)]; [discriminate | apply W in X; discriminate].
  - congruence.
Qed.
Print Assumptions C119_when.

Lemma look_do e s : filter is_do (snd (look e s)) = snd (look e s).
Proof. unfold look. destruct (th s); auto. destruct (all_stopped e s); auto. Qed.

(** In all, it is reset at most once: not while it waits, and once when it no longer does. *)
Theorem C119_once e s h l : happened e s h l -> alive e h ->
  (~ granted e h -> filter is_do l = []) /\
  (forall t, waits e h t -> filter is_do l = []) /\
  (granted e h -> (forall t, ~ waits e h t) -> exists t, filter is_do l = [ODoReset t]).
Proof.
  intros H L. assert (G : filter is_do l = [] /\ (th s = NoThread \/ exists t, th s = Waiting t) \/ (exists t, filter is_do l = [ODoReset t]) /\ th s = Finished).
  { induction H as [ | s h l o H IH].
    - left. cbn. auto.
    - specialize (IH (alive_tail _ _ _ L)). pose proof (happened_inv _ _ _ _ H (alive_tail _ _ _ L)) as V. rewrite filter_app.
      unfold step. rewrite (i_dead _ _ _ V). inversion L as [ | ? ? L' ND NG]; subst.
      assert (LK : filter is_do l ++ filter is_do (snd (look e s)) = [] /\ (th (fst (look e s)) = NoThread \/ exists t, th (fst (look e s)) = Waiting t) \/
                   (exists t, filter is_do l ++ filter is_do (snd (look e s)) = [ODoReset t]) /\ th (fst (look e s)) = Finished).
      { rewrite look_do. unfold look. destruct IH as [(F & [T | (t & T)]) | ((t & F) & T)]; rewrite T, F; cbn.
        - left. rewrite T. auto.
        - destruct (all_stopped e s); cbn; [right; eauto | left; rewrite T; eauto].
        - right. rewrite T. eauto. }
      destruct o as [t b | tx | c a | c | c tx | c | c ch | | | | ]; try exact LK; try (cbn [fst snd filter]; rewrite app_nil_r; exact IH).
      + unfold reset. assert (A : filter is_do (if asks e && resets e then [OAsk t] else []) = []) by (destruct (asks e && resets e); auto).
        destruct (asks e && resets e && b) eqn:G.
        * assert (T : th s = NoThread). { apply (i_no _ _ _ V). apply (NG t). apply grants_reset. auto. } rewrite T.
          assert (F : filter is_do l = []) by (destruct IH as [(F & _) | (_ & X)]; [auto | congruence]).
          unfold look. cbn [th set_th]. destruct (all_stopped e (set_th s (Waiting t))); cbn [fst snd]; rewrite filter_app, A; cbn [filter is_do app];
            rewrite filter_app, stop_all_do, F; cbn; [right; eauto | left; eauto].
        * cbn [fst snd]. rewrite filter_app, A. cbn [filter is_do app]. rewrite app_nil_r. exact IH.
      + cbn [fst snd]. unfold remote_stop. destruct (0 <? connector_of e s tx); cbn [filter is_do]; rewrite app_nil_r; exact IH.
      + cbn [fst snd]. assert (U : filter is_do (unlock_connector e s c a) = []).
        { unfold unlock_connector. rewrite filter_app. destruct ((0 <? c) && (c <=? Z.of_nat (n e)) && unlocks e); cbn [filter is_do app].
          - destruct a; auto. destruct ((c <? 0) || (Z.of_nat (n e) <? c)); auto. destruct ((0 <? c) && (c <=? Z.of_nat (n e)) && is_some (active s c) && stop_if_unsupported e); auto.
          - destruct ((c <? 0) || (Z.of_nat (n e) <? c)); auto. destruct ((0 <? c) && (c <=? Z.of_nat (n e)) && is_some (active s c) && stop_if_unsupported e); auto. }
        rewrite U, app_nil_r. exact IH.
      + cbn [fst snd filter]. rewrite app_nil_r. destruct (active s c); exact IH.
      + destruct IH as [(F & [T | (t & T)]) | ((t & F) & T)]; rewrite T, F; cbn; [left; rewrite T; auto | right; eauto | right; rewrite T; eauto].
      + congruence. }
  pose proof (happened_inv _ _ _ _ H L) as V. destruct G as [(F & T) | ((t & F) & T)].
  - rewrite F. split; [auto | split; [auto |]]. intros X Y. exfalso. destruct T as [T | (t & T)].
    + apply (i_no _ _ _ V) in T. auto.
    + apply (i_wait _ _ _ V) in T. now apply (Y t).
  - split; [| split].
    + intros X. apply (i_no _ _ _ V) in X. congruence.
    + intros t' X. apply (i_wait _ _ _ V) in X. congruence.
    + eauto.
Qed.
Print Assumptions C119_once.

(** But the process ends at a second accepted reset, or when the object is destroyed after one. *)
Definition e2 : env := {| n := 2; asks := true; resets := true; unlocks := true; stop_if_unsupported := true |}.
Fixpoint run (e : env) (s : state) (os : list op) : state * list out :=
  match os with [] => (s, []) | o :: r => let '(s', l) := step e s o in let '(s'', l') := run e s' r in (s'', l ++ l') end.
Theorem C119_second_refuted : exists os, snd (run e2 init os) = [OAsk Soft; OReset true; ODoReset Soft; OAsk Hard; OReset true; OTerminate].
Proof. exists [Reset Soft true; Reset Hard true]. vm_compute. reflexivity. Qed.
Print Assumptions C119_second_refuted.
Theorem C119_destroy_refuted : exists os, snd (run e2 init os) = [OAsk Soft; OReset true; ODoReset Soft; OTerminate].
Proof. exists [Reset Soft true; Destroy]. vm_compute. reflexivity. Qed.
Print Assumptions C119_destroy_refuted.

(** Nor is it reset as soon as all is quiet: a connector that leaves Charging after the StopTransaction.conf wakes nobody. *)
Lemma happened_run e os : forall s h l, happened e s h l -> happened e (fst (run e s os)) (rev os ++ h) (l ++ snd (run e s os)).
Proof.
  induction os as [ | o r IH]; intros s h l H.
  - cbn. now rewrite app_nil_r.
  - cbn. pose proof (IH _ _ _ (h_step e s h l o H)) as X. destruct (step e s o) as (s', l1). cbn [fst snd] in X. destruct (run e s' r) as (s'', l'). cbn [fst snd] in *.
    rewrite <- app_assoc in X. rewrite <- app_assoc. exact X.
Qed.
Definition slow : list op := [Started 1; Confirmed 1 7; Status 1 true; Reset Soft true; Stopped 1; StopConf; Status 1 false].
Theorem C119_soon_refuted : exists h s l t, happened e2 s h l /\ alive e2 h /\ waits e2 h t /\ quiet e2 h.
Proof.
  pose proof (happened_run e2 slow init [] [] (h_init e2)) as H. exists (rev slow ++ []). do 2 eexists. exists Soft. split; [exact H |].
  assert (L : alive e2 (rev slow ++ [])).
  { cbn. repeat (apply al_more; [| discriminate | try (intros t (X & _); discriminate)]); [apply al_nil |].
    intros t _ (o & t' & I & (G & _)). cbn in I. intuition congruence. }
  split; [exact L |]. pose proof (happened_inv _ _ _ _ H L) as V. split.
  - apply (i_wait _ _ _ V). vm_compute. reflexivity.
  - apply (quiet_iff _ _ _ V). vm_compute. reflexivity.
Qed.
Print Assumptions C119_soon_refuted.

(** A remote stop is accepted iff a transaction has this id, and asks the application to stop one that has it, once. *)
Theorem C119_remote_stop e s h l tx : happened e s h l -> alive e h ->
  ((exists c, 1 <= c <= Z.of_nat (n e) /\ on h c (Some tx)) ->
    exists c, 1 <= c <= Z.of_nat (n e) /\ on h c (Some tx) /\ snd (step e s (RemoteStop tx)) = [ORemoteStop true; OStopTx c Remote]) /\
  (~ (exists c, 1 <= c <= Z.of_nat (n e) /\ on h c (Some tx)) -> snd (step e s (RemoteStop tx)) = [ORemoteStop false]).
Proof.
  intros H L. pose proof (happened_inv _ _ _ _ H L) as V. unfold step. rewrite (i_dead _ _ _ V). cbn [snd]. unfold remote_stop, connector_of.
  destruct (find _ (connectors (n e))) as [c | ] eqn:F.
  - apply find_some in F. destruct F as (I & A). apply connectors_in in I. destruct (active s c) as [[x | ] | ] eqn:X; try discriminate.
    apply Z.eqb_eq in A. subst. apply (i_on _ _ _ V) in X. assert (P : 0 <? c = true) by (apply Z.ltb_lt; lia). rewrite P. split.
    + intros _. exists c. repeat split; auto; lia.
    + intros N. exfalso. apply N. exists c. split; auto.
  - split; [| auto]. intros (c & R & O). exfalso. apply (i_on _ _ _ V) in O. pose proof (find_none _ _ F c (proj2 (connectors_in _ _) R)) as X. cbn in X. rewrite O in X. now rewrite Z.eqb_refl in X.
Qed.
Print Assumptions C119_remote_stop.

(** The application is asked to unlock iff there is such a connector (and it can); its answer is passed on, otherwise it is not
    supported; then, and only then, a transaction there is stopped if so configured. *)
Theorem C119_unlock e s h l c a : happened e s h l -> alive e h -> 0 <= c <= Z.of_nat (n e) ->
  let could := 1 <= c /\ unlocks e = true in
  let ls := snd (step e s (Unlock c a)) in
  (forall d, In (OUnlock d) ls <-> d = c /\ could) /\
  (forall u, In (OUnlockConf u) ls <-> (could /\ u = a \/ ~ could /\ u = NotSupported)) /\
  (forall d r, In (OStopTx d r) ls <-> d = c /\ 1 <= c /\ r = UnlockCommand /\ In (OUnlockConf NotSupported) ls /\ (exists i, on h c i) /\ stop_if_unsupported e = true) /\
  ~ In OCallError ls.
Proof.
  intros H L R could ls. pose proof (happened_inv _ _ _ _ H L) as V. subst ls. unfold step. rewrite (i_dead _ _ _ V). cbn [snd]. unfold unlock_connector.
  assert (RR : (c <? 0) || (Z.of_nat (n e) <? c) = false) by (apply orb_false_iff; rewrite !Z.ltb_ge; lia). rewrite RR.
  assert (IN : (0 <? c) && (c <=? Z.of_nat (n e)) = true <-> 1 <= c) by (rewrite andb_true_iff, Z.ltb_lt, Z.leb_le; lia).
  assert (AC : is_some (active s c) = true <-> exists i, on h c i).
  { split; [destruct (active s c) as [i | ] eqn:A; [| discriminate]; intros _; exists i; now apply (i_on _ _ _ V) | intros (i & O); apply (i_on _ _ _ V) in O; now rewrite O]. }
  destruct ((0 <? c) && (c <=? Z.of_nat (n e))) eqn:B.
  - assert (B' : 1 <= c) by now apply IN. destruct (unlocks e) eqn:U; cbn [andb].
    + assert (C : could) by (split; auto). destruct a.
      * cbn. split; [| split; [| split]].
        -- intros d. split; [intros [X | [X | []]]; inversion X; auto | intros (-> & _); auto].
        -- intros u. split; [intros [X | [X | []]]; inversion X; auto | intros [(_ & ->) | (X & _)]; auto; now apply X in C].
        -- intros d r. split; [intros [X | [X | []]]; inversion X | intros (_ & _ & _ & [X | [X | []]] & _); inversion X].
        -- intros [X | [X | []]]; inversion X.
      * cbn. split; [| split; [| split]].
        -- intros d. split; [intros [X | [X | []]]; inversion X; auto | intros (-> & _); auto].
        -- intros u. split; [intros [X | [X | []]]; inversion X; auto | intros [(_ & ->) | (X & _)]; auto; now apply X in C].
        -- intros d r. split; [intros [X | [X | []]]; inversion X | intros (_ & _ & _ & [X | [X | []]] & _); inversion X].
        -- intros [X | [X | []]]; inversion X.
      * destruct (is_some (active s c) && stop_if_unsupported e) eqn:ST; cbn.
        -- apply andb_true_iff in ST. destruct ST as (S1 & S2). apply AC in S1. split; [| split; [| split]].
           ++ intros d. split; [intros [X | [X | [X | []]]]; inversion X; auto | intros (-> & _); auto].
           ++ intros u. split; [intros [X | [X | [X | []]]]; inversion X; auto | intros [(_ & ->) | (X & _)]; auto; now apply X in C].
           ++ intros d r. split; [intros [X | [X | [X | []]]]; inversion X; subst; repeat split; auto | intros (-> & _ & -> & _); auto].
           ++ intros [X | [X | [X | []]]]; inversion X.
        -- split; [| split; [| split]].
           ++ intros d. split; [intros [X | [X | []]]; inversion X; auto | intros (-> & _); auto].
           ++ intros u. split; [intros [X | [X | []]]; inversion X; auto | intros [(_ & ->) | (X & _)]; auto; now apply X in C].
           ++ intros d r. split; [intros [X | [X | []]]; inversion X | intros (_ & _ & _ & _ & X & Y)]. apply AC in X. rewrite X, Y in ST. discriminate.
           ++ intros [X | [X | []]]; inversion X.
    + assert (C : ~ could) by (intros (_ & X); congruence).
      destruct (is_some (active s c) && stop_if_unsupported e) eqn:ST; cbn.
      * apply andb_true_iff in ST. destruct ST as (S1 & S2). apply AC in S1. split; [| split; [| split]].
        -- intros d. split; [intros [X | [X | []]]; inversion X | intros (_ & X); now apply C in X].
        -- intros u. split; [intros [X | [X | []]]; inversion X; auto | intros [(X & _) | (_ & ->)]; auto; now apply C in X].
        -- intros d r. split; [intros [X | [X | []]]; inversion X; subst; repeat split; auto | intros (-> & _ & -> & _); auto].
        -- intros [X | [X | []]]; inversion X.
      * split; [| split; [| split]].
        -- intros d. split; [intros [X | []]; inversion X | intros (_ & X); now apply C in X].
        -- intros u. split; [intros [X | []]; inversion X; auto | intros [(X & _) | (_ & ->)]; auto; now apply C in X].
        -- intros d r. split; [intros [X | []]; inversion X | intros (_ & _ & _ & _ & X & Y)]. apply AC in X. rewrite X, Y in ST. discriminate.
        -- intros [X | []]; inversion X.
  - assert (B' : ~ 1 <= c) by (intros X; apply IN in X; discriminate). assert (C : ~ could) by (intros (X & _); auto). cbn.
    split; [| split; [| split]].
    + intros d. split; [intros [X | []]; inversion X | intros (_ & X); now apply C in X].
    + intros u. split; [intros [X | []]; inversion X; auto | intros [(X & _) | (_ & ->)]; auto; now apply C in X].
    + intros d r. split; [intros [X | []]; inversion X | intros (_ & X & _); now apply B' in X].
    + intros [X | []]; inversion X.
Qed.
Print Assumptions C119_unlock.
(** An unknown connector is answered twice: NotSupported, then an error. *)
Theorem C119_unknown_refuted : exists c a, List.length (filter is_reply (snd (step e2 init (Unlock c a)))) = 2%nat.
Proof. exists 3, Unlocked. vm_compute. reflexivity. Qed.
Print Assumptions C119_unknown_refuted.

(** With two connectors, one charging: the reset waits for the StopTransaction.conf, and comes then. *)
Example C119_example : snd (run e2 init [Started 2; Confirmed 2 9; Status 2 true; RemoteStop 8; Unlock 1 Unlocked; Reset Hard true; Stopped 2; Status 2 false; StopConf; TimeOut])
  = [ORemoteStop false; OUnlock 1; OUnlockConf Unlocked; OAsk Hard; OReset true; OStopTx 2 HardReset; ODoReset Hard].
Proof. vm_compute. reflexivity. Qed.
Example C119_example_alive : exists s h l, happened e2 s h l /\ alive e2 (Reset Hard true :: h) /\ on h 1 None /\ (exists t b, grants e2 (Reset t b) Hard).
Proof.
  exists (fst (step e2 init (Started 1))), [Started 1]. eexists. split; [apply h_step; apply h_init |]. split; [| split].
  - apply al_more; [apply al_more; [apply al_nil | discriminate | intros t (X & _); discriminate] | discriminate |].
    intros t _ (o & t' & [<- | []] & (X & _)). discriminate.
  - constructor.
  - exists Hard, true. repeat split.
Qed.
