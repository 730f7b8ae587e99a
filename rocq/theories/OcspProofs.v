(** Proofs about the updater of the OCSP cache. *)
From Coq Require Import String ZArith List Bool Lia.
From Verif Require Import OcspModel OcspSpec.
Import ListNotations.
Local Open Scope list_scope.
Local Open Scope Z_scope.

Definition is_ans (o : op) : bool := match o with Answer _ _ => true | _ => false end.
Definition writes (got : list (hash * string)) : list out := map (fun w => OWrite (fst w) (snd w)) got.

Lemma sendable_short c : sendable c = true <-> short c.
Proof.
  unfold sendable, short, fits. rewrite !andb_true_iff, !Z.leb_le. tauto.
Qed.

Lemma writes_no got x : (forall h s, x <> OWrite h s) -> ~ In x (writes got).
Proof. intros N. unfold writes. rewrite in_map_iff. intros ((h & s) & E & _). cbn in E. exact (N h s (eq_sym E)). Qed.

(** What [ask] does. *)
Lemma ask_spec iv s now cs got :
  (cs = [] /\ ask iv s now cs got = (Ocsp (now + i_update iv) (running s) Waiting, writes got ++ [ODone])) \/
  (exists c rest, cs = c :: rest /\ short c /\ ask iv s now cs got = (Ocsp (deadline s) (running s) (Updating c rest got), [OAsk c])) \/
  (exists c rest, cs = c :: rest /\ ~ short c /\ ask iv s now cs got = (Ocsp (deadline s) (running s) Dead, [OTerminate])).
Proof.
  destruct cs as [ | c rest]; [left; split; reflexivity | right].
  cbn [ask]. destruct (sendable c) eqn:E; [left | right]; exists c, rest; repeat split; auto.
  - now apply sendable_short.
  - now apply sendable_short.
  - now apply sendable_short.
  - now apply sendable_short.
  - rewrite <- sendable_short, E. discriminate.
Qed.

Lemma stored_app cs rs l c res : stored cs rs l ->
  stored (cs ++ [c]) (rs ++ [Conf true (Some res)]) (l ++ [OWrite (hash_of c) res]).
Proof. induction 1; cbn; constructor; auto. constructor. Qed.
Lemma stored_length cs rs l : stored cs rs l -> List.length cs = List.length rs.
Proof. induction 1; cbn; congruence. Qed.
Lemma stored_fun cs rs l l' : stored cs rs l -> stored cs rs l' -> l = l'.
Proof. intros H. revert l'. induction H; intros l' H'; inversion H'; subst; auto. f_equal. auto. Qed.
Lemma stored_last cs rs c r l : stored (cs ++ [c]) (rs ++ [r]) l -> exists res, r = Conf true (Some res).
Proof.
  revert rs l. induction cs as [ | d cs IH]; intros [ | q rs] l H; cbn in H; inversion H; subst.
  - eauto.
  - match goal with X : stored [] (_ ++ _) _ |- _ => inversion X; destruct rs; discriminate end.
  - match goal with X : stored (_ ++ _) [] _ |- _ => inversion X; destruct cs; discriminate end.
  - eauto.
Qed.

(** The state and what has been seen. *)
Definition up (s : ocsp) (cs : list cert) (rs : list reply) : Prop :=
  exists past c rest got, thr s = Updating c rest got /\ cs = past ++ c :: rest /\ stored past rs (writes got).
Record inv (t0 : Z) (iv : intervals) (s : ocsp) (h : history) : Prop := Inv {
  v_dead : thr s = Dead <-> terminated h;
  v_due : thr s <> Dead -> due t0 iv h (deadline s);
  v_due1 : thr s <> Dead -> forall t, due t0 iv h t -> t = deadline s;
  v_on : thr s <> Dead -> running s = true -> on h;
  v_on1 : thr s <> Dead -> on h -> running s = true;
  v_abs : thr s = Absent -> running s = false;
  v_ep : forall c rest got, thr s = Updating c rest got -> exists cs rs, episode h cs rs;
  v_ep1 : thr s <> Dead -> forall cs rs, episode h cs rs -> up s cs rs
}.

Lemma terminated_cons o l h : terminated ((o, l) :: h) <-> In OTerminate l \/ terminated h.
Proof.
  unfold terminated. cbn. split.
  - intros (e & [<- | I] & T); [now left | right; eauto].
  - intros [T | (e & I & T)]; eauto.
Qed.

Lemma inv_init t0 iv : inv t0 iv (init t0) [].
Proof.
  constructor; cbn; try discriminate.
  - split; [discriminate | intros (e & [] & _)].
  - intros _. constructor.
  - intros _ t H. now inversion H.
  - intros _ H. inversion H.
  - auto.
  - intros _ cs rs H. inversion H.
Qed.

Ltac nin := cbn; intuition discriminate.
Lemma due_keep t0 iv h t o l : due t0 iv h t -> ~ In ODone l -> ~ In OFailed l -> (forall now, (o, l) <> (Trigger now, [])) -> due t0 iv ((o, l) :: h) t.
Proof. apply due_same. Qed.
Lemma due_keep1 t0 iv h t o l : due t0 iv ((o, l) :: h) t -> ~ In ODone l -> ~ In OFailed l -> (forall now, (o, l) <> (Trigger now, [])) -> due t0 iv h t.
Proof. intros D N1 N2 N3. inversion D; subst; try contradiction; auto. exfalso. eapply N3; reflexivity. Qed.
Lemma on_keep o l h : o <> Start \/ In OBlocked l -> o <> Stop \/ In OBlocked l -> (on ((o, l) :: h) <-> on h).
Proof.
  intros A B. split; intros H.
  - inversion H; subst; auto. destruct A; contradiction.
  - now apply on_same.
Qed.

(** A step that changes nothing but may be seen as blocked or in vain. *)
Lemma inv_idle t0 iv s h o l : inv t0 iv s h ->
  ~ In ODone l -> ~ In OFailed l -> ~ In OTerminate l -> (forall n, ~ In (OBegin n) l) ->
  (o <> Start \/ In OBlocked l) -> (o <> Stop \/ In OBlocked l) -> (forall now, (o, l) <> (Trigger now, [])) ->
  (is_ans o = false \/ (forall c rest got, thr s <> Updating c rest got)) ->
  inv t0 iv s ((o, l) :: h).
Proof.
  intros [Vd Vu Vu1 Vo Vo1 Va Ve Ve1] N1 N2 N3 N4 A B N5 N6. constructor; auto.
  - rewrite terminated_cons, <- Vd. clear - N3. split; [now right | intros [X | X]; [contradiction | exact X]].
  - intros L. apply due_keep; auto.
  - intros L t D. apply Vu1; auto. eapply due_keep1; eauto.
  - intros L R. apply on_keep; auto.
  - intros L R. apply on_keep in R; auto.
  - intros c rest got E. destruct (Ve _ _ _ E) as (cs & rs & X). exists cs, rs. apply ep_same; auto.
    intros now r ->. destruct N6 as [N6 | N6]; [discriminate | exact (N6 _ _ _ E)].
  - intros L cs rs X. inversion X; subst.
    + exfalso. eapply N4; eauto.
    + exfalso. destruct N6 as [N6 | N6]; [discriminate |].
      match goal with Y : episode h _ _ |- _ => destruct (Ve1 L _ _ Y) as (? & ? & ? & ? & U & _) end. exact (N6 _ _ _ U).
    + auto.
Qed.

Lemma inv_dead t0 iv s h o l : inv t0 iv s h -> thr s = Dead -> inv t0 iv s ((o, l) :: h).
Proof.
  intros [Vd Vu Vu1 Vo Vo1 Va Ve Ve1] D. constructor; try (intros; congruence).
  rewrite terminated_cons. split; [intros _; right; now apply Vd | auto].
Qed.
Lemma inv_dies t0 iv d r h o l : In OTerminate l -> inv t0 iv (Ocsp d r Dead) ((o, l) :: h).
Proof.
  intros T. constructor; cbn; try congruence.
  rewrite terminated_cons. split; [now left | auto].
Qed.

Lemma up_not_idle s cs rs : up s cs rs -> exists c rest got, thr s = Updating c rest got.
Proof. intros (past & c & rest & got & E & _). eauto. Qed.

Lemma inv_step t0 iv s h o : inv t0 iv s h -> inv t0 iv (fst (step iv s o)) ((o, snd (step iv s o)) :: h).
Proof.
  intros V. pose proof V as [Vd Vu Vu1 Vo Vo1 Va Ve Ve1].
  destruct s as [d r t]. cbn [deadline running thr] in *. unfold step. cbn [thr].
  destruct t as [ | | c rest got | ].
  - (* no thread *)
    assert (L : Absent <> Dead) by discriminate.
    assert (NT : ~ terminated h) by (rewrite <- Vd; discriminate).
    assert (NE : forall cs rs, ~ episode h cs rs) by (intros cs rs X; destruct (up_not_idle _ _ _ (Ve1 L _ _ X)) as (? & ? & ? & E); discriminate E).
    destruct o as [ | | now | now cs | now rp]; cbn [fst snd].
    + constructor; cbn [deadline running thr]; try discriminate.
      * rewrite terminated_cons. cbn. intuition discriminate.
      * intros _. apply due_keep; auto; nin.
      * intros _ t D. apply Vu1; auto. eapply due_keep1; eauto; nin.
      * intros _ _. apply on_start. nin.
      * auto.
      * intros _ cs rs X. inversion X; subst. exfalso; eapply NE; eassumption.
    + constructor; cbn [deadline running thr]; try discriminate.
      * rewrite terminated_cons. cbn. intuition discriminate.
      * intros _. apply due_keep; auto; nin.
      * intros _ t D. apply Vu1; auto. eapply due_keep1; eauto; nin.
      * intros _ H. inversion H; subst. match goal with X : _ <> _ \/ In _ _ |- _ => destruct X as [X | X]; [congruence | destruct X] end.
      * auto.
      * intros _ cs rs X. inversion X; subst. exfalso; eapply NE; eassumption.
    + assert (R : r = false) by (apply Va; reflexivity). subst r. cbn [running fst snd].
      apply inv_idle; auto; try nin; try (left; discriminate).
    + apply inv_idle; auto; try nin; try (left; discriminate).
    + apply inv_idle; auto; try nin; try (left; discriminate).
  - (* waiting *)
    assert (L : Waiting <> Dead) by discriminate.
    assert (NT : ~ terminated h) by (rewrite <- Vd; discriminate).
    assert (NE : forall cs rs, ~ episode h cs rs) by (intros cs rs X; destruct (up_not_idle _ _ _ (Ve1 L _ _ X)) as (? & ? & ? & E); discriminate E).
    destruct o as [ | | now | now cs | now rp]; cbn [fst snd].
    + apply inv_dies. now left.
    + constructor; cbn [deadline running thr]; try discriminate.
      * rewrite terminated_cons. cbn. intuition discriminate.
      * intros _. apply due_keep; auto; nin.
      * intros _ t D. apply Vu1; auto. eapply due_keep1; eauto; nin.
      * intros _ H. inversion H; subst. match goal with X : _ <> _ \/ In _ _ |- _ => destruct X as [X | X]; [congruence | destruct X] end.
      * intros _ cs rs X. inversion X; subst. exfalso; eapply NE; eassumption.
    + cbn [running]. destruct r; cbn [fst snd].
      * constructor; cbn [deadline running thr]; try discriminate.
        -- rewrite terminated_cons. cbn. intuition discriminate.
        -- intros _. constructor.
        -- intros _ t D. inversion D; subst; auto. exfalso. match goal with X : forall now, _ <> _ |- _ => eapply X; reflexivity end.
        -- intros _ _. apply on_keep; auto; left; discriminate.
        -- auto.
        -- intros _ cs rs X. inversion X; subst. exfalso; eapply NE; eassumption.
      * apply inv_idle; auto; try nin; try (left; discriminate).
    + cbn [running deadline]. destruct r; cbn [fst snd].
      * destruct (now <=? d); cbn [fst snd].
        { apply inv_idle; auto; try nin; try (left; discriminate). }
        destruct (ask_spec iv (Ocsp d true Waiting) now cs []) as [(-> & E) | [(c & rest & -> & Sh & E) | (c & rest & -> & Sh & E)]]; rewrite E; cbn [fst snd running deadline writes map app].
        -- constructor; cbn [deadline running thr]; try discriminate.
           ++ rewrite terminated_cons. cbn. intuition discriminate.
           ++ intros _. apply due_done_at_once. nin.
           ++ intros _ t D. inversion D; subst; auto. exfalso. match goal with X : ~ In ODone _ |- _ => apply X end. nin.
           ++ intros _ _. apply on_keep; auto; left; discriminate.
           ++ auto.
           ++ intros _ cs rs X. inversion X; subst.
              ** exfalso. match goal with X : ~ In ODone _ |- _ => apply X end. nin.
              ** exfalso; eapply NE; eassumption.
        -- constructor; cbn [deadline running thr]; try discriminate.
           ++ rewrite terminated_cons. cbn. intuition discriminate.
           ++ intros _. apply due_keep; auto; nin.
           ++ intros _ t D. apply Vu1; auto. eapply due_keep1; eauto; nin.
           ++ intros _ _. apply on_keep; auto; left; discriminate.
           ++ auto.
           ++ intros c0 rest0 got E0. inversion E0; subst. exists (c0 :: rest0), []. eapply ep_begin; [left; reflexivity | nin | nin].
           ++ intros _ cs rs X. inversion X; subst.
              ** exists [], c, rest, []. repeat split. constructor.
              ** exfalso; eapply NE; eassumption.
        -- apply inv_dies. right. now left.
      * constructor; cbn [deadline running thr]; try discriminate.
        -- rewrite terminated_cons. cbn. intuition discriminate.
        -- intros _. apply due_keep; auto; nin.
        -- intros _ t D. apply Vu1; auto. eapply due_keep1; eauto; nin.
        -- intros _ H. apply on_keep in H; auto; left; discriminate.
        -- auto.
        -- intros _ cs' rs X. inversion X; subst.
           ++ exfalso. match goal with X : In (OBegin _) _ |- _ => revert X end. nin.
           ++ exfalso; eapply NE; eassumption.
    + apply inv_idle; auto; try nin; try (left; discriminate).
  - (* updating *)
    assert (L : Updating c rest got <> Dead) by discriminate.
    assert (NT : ~ terminated h) by (rewrite <- Vd; discriminate).
    assert (B : forall o, is_ans o = false -> (forall now cs, o <> Wake now cs) -> inv t0 iv (Ocsp d r (Updating c rest got)) ((o, [OBlocked]) :: h)).
    { intros o' A W. apply inv_idle; auto; try nin; try (right; now left). }
    destruct o as [ | | now | now cs | now rp]; cbn [fst snd].
    + apply B; [reflexivity | discriminate].
    + apply B; [reflexivity | discriminate].
    + apply B; [reflexivity | discriminate].
    + apply inv_idle; auto; try nin; try (left; discriminate).
    + assert (F : inv t0 iv (Ocsp (now + i_retry iv) r Waiting) ((Answer now rp, [OFailed]) :: h)).
      { constructor; cbn [deadline running thr]; try discriminate.
        - rewrite terminated_cons. cbn. intuition discriminate.
        - intros _. apply due_failed. now left.
        - intros _ t D. inversion D; subst; auto.
          + exfalso. match goal with X : In ODone _ |- _ => revert X end. nin.
          + exfalso. match goal with X : ~ In OFailed _ |- _ => apply X end. nin.
        - intros _ H. apply on_keep; auto; left; discriminate.
        - intros _ H. apply Vo1; auto. apply on_keep in H; auto; left; discriminate.
        - intros _ cs rs X. exfalso. inversion X; subst.
          + match goal with X : ~ In OFailed _ |- _ => apply X end. nin.
          + match goal with X : forall now r, _ <> _ |- _ => eapply X; reflexivity end. }
      destruct rp as [[ | ] [res | ] | | ]; cbn [status_of fst snd]; cbn [deadline running]; try exact F.
      2:{ apply inv_dies. now left. }
      destruct (ask_spec iv (Ocsp d r (Updating c rest got)) now rest (got ++ [(hash_of c, res)])) as [(-> & E) | [(c' & rest' & -> & Sh & E) | (c' & rest' & -> & Sh & E)]]; rewrite E; cbn [fst snd running deadline].
      * assert (HD : In ODone (writes (got ++ [(hash_of c, res)]) ++ [ODone])) by (apply in_or_app; right; now left).
        assert (HF : ~ In OFailed (writes (got ++ [(hash_of c, res)]) ++ [ODone])).
        { rewrite in_app_iff. intros [X | X]; [revert X; apply writes_no; discriminate | revert X; nin]. }
        assert (HT : ~ In OTerminate (writes (got ++ [(hash_of c, res)]) ++ [ODone])).
        { rewrite in_app_iff. intros [X | X]; [revert X; apply writes_no; discriminate | revert X; nin]. }
        constructor; cbn [deadline running thr]; try discriminate.
        -- rewrite terminated_cons. split; [discriminate | tauto].
        -- intros _. now apply due_done.
        -- intros _ t D. inversion D; subst; auto; contradiction.
        -- intros _ H. apply on_keep; auto; left; discriminate.
        -- intros _ H. apply Vo1; auto. apply on_keep in H; auto; left; discriminate.
        -- intros _ cs rs X. exfalso. inversion X; subst; [contradiction |].
           match goal with X : forall now r, _ <> _ |- _ => eapply X; reflexivity end.
      * constructor; cbn [deadline running thr]; try discriminate.
        -- rewrite terminated_cons. cbn. intuition discriminate.
        -- intros _. apply due_keep; auto; nin.
        -- intros _ t D. apply Vu1; auto. eapply due_keep1; eauto; nin.
        -- intros _ H. apply on_keep; auto; left; discriminate.
        -- intros _ H. apply Vo1; auto. apply on_keep in H; auto; left; discriminate.
        -- intros c0 rest0 got0 E0. destruct (Ve _ _ _ eq_refl) as (cs & rs & X). exists cs, (rs ++ [Conf true (Some res)]).
           apply ep_answer; auto; nin.
        -- intros _ cs rs X. inversion X; subst.
           2:{ exfalso. match goal with X : forall now r, _ <> _ |- _ => eapply X; reflexivity end. }
           match goal with X : episode h _ _ |- _ => destruct (Ve1 L _ _ X) as (past & c1 & rest1 & got1 & U & -> & St) end.
           cbn in U. inversion U; subst. exists (past ++ [c1]), c', rest', (got1 ++ [(hash_of c1, res)]). repeat split.
           ++ now rewrite <- app_assoc.
           ++ unfold writes. rewrite map_app. cbn. now apply stored_app.
      * apply inv_dies. now left.
  - apply inv_dead; auto.
Qed.

Lemma happened_inv t0 iv s h : happened t0 iv s h -> inv t0 iv s h.
Proof.
  induction 1; [apply inv_init |].
  pose proof (inv_step t0 iv s h o IHhappened) as V. rewrite H0 in V. exact V.
Qed.

(** When an update begins. *)
Lemma begins_iff t0 iv s h now cs : happened t0 iv s h ->
  (exists n, In (OBegin n) (snd (step iv s (Wake now cs)))) <->
  ~ terminated h /\ on h /\ (forall ds rs, ~ episode h ds rs) /\ exists t, due t0 iv h t /\ t < now.
Proof.
  intros H. apply happened_inv in H. destruct H as [Vd Vu Vu1 Vo Vo1 Va Ve Ve1].
  unfold step. destruct (thr s) as [ | | c rest got | ] eqn:T; rewrite ?T in *.
  - split; [intros (n & []) | intros (_ & O & _)]. rewrite (Vo1 ltac:(discriminate) O) in Va. discriminate (Va eq_refl).
  - assert (L : Waiting <> Dead) by discriminate. destruct (running s) eqn:R.
    + destruct (now <=? deadline s) eqn:C; cbn [snd].
      * split; [intros (n & []) | intros (_ & _ & _ & t & D & Lt)]. rewrite (Vu1 L _ D) in Lt. apply Z.leb_le in C. lia.
      * split.
        -- intros _. repeat split; auto; try (rewrite <- Vd; discriminate).
           ++ intros ds rs X. destruct (Ve1 L _ _ X) as (? & ? & ? & ? & U & _). congruence.
           ++ exists (deadline s). split; [auto | apply Z.leb_gt in C; lia].
        -- intros _. exists (List.length cs). destruct (ask iv s now cs []). now left.
    + split; [cbn; intros (n & [X | []]); discriminate | intros (_ & O & _)]. discriminate (Vo1 L O).
  - split; [intros (n & []) | intros (_ & _ & N & _)]. destruct (Ve _ _ _ eq_refl) as (ds & rs & X). destruct (N _ _ X).
  - split; [intros (n & []) | intros (N & _)]. exfalso. apply N. now apply Vd.
Qed.

Lemma begins_with iv s now cs n : In (OBegin n) (snd (step iv s (Wake now cs))) ->
  snd (step iv s (Wake now cs)) = OBegin (List.length cs) :: snd (ask iv s now cs []).
Proof.
  unfold step. destruct (thr s); cbn [snd]; try (intros []; fail).
  destruct (running s); [destruct (now <=? deadline s) | ]; cbn [snd]; try (intros []; fail).
  - intros _. now destruct (ask iv s now cs []).
  - intros [X | []]; discriminate.
Qed.

Lemma ask_out iv s now cs :
  match cs with
  | [] => snd (ask iv s now cs []) = [ODone]
  | c :: _ => (short c -> snd (ask iv s now cs []) = [OAsk c]) /\ (~ short c -> snd (ask iv s now cs []) = [OTerminate])
  end.
Proof.
  destruct cs as [ | c rest]; [reflexivity |]. cbn [ask]. rewrite <- sendable_short. destruct (sendable c); cbn; split; congruence.
Qed.

Lemma begin_only iv s o n : In (OBegin n) (snd (step iv s o)) -> exists now cs, o = Wake now cs.
Proof.
  unfold step. destruct (thr s) as [ | | c rest got | ]; destruct o as [ | | now | now cs | now r]; cbn [snd]; eauto;
    try (intros []; fail); try (destruct (running s); cbn; intuition discriminate); try (cbn; intuition discriminate).
  destruct (status_of r) as [[[ | ] [res | ]] | ]; cbn [snd]; try (cbn; intuition discriminate).
  destruct (ask_spec iv s now rest (got ++ [(hash_of c, res)])) as [(-> & E) | [(c' & rest' & -> & Sh & E) | (c' & rest' & -> & Sh & E)]]; rewrite E; cbn [snd]; try (cbn; intuition discriminate).
  rewrite in_app_iff. intros [X | X]; [exfalso; revert X; apply writes_no; discriminate | revert X; nin].
Qed.

(** What an answer brings about. *)
Lemma answer_none t0 iv s h now r : happened t0 iv s h -> (forall cs rs, ~ episode h cs rs) -> snd (step iv s (Answer now r)) = [].
Proof.
  intros H N. apply happened_inv in H. unfold step. destruct (thr s) as [ | | c rest got | ] eqn:T; auto.
  destruct (v_ep _ _ _ _ H _ _ _ T) as (cs & rs & X). destruct (N _ _ X).
Qed.

Lemma answer_bad t0 iv s h now r cs rs : happened t0 iv s h -> ~ terminated h -> episode h cs rs ->
  match r with
  | Unreadable => snd (step iv s (Answer now r)) = [OTerminate]
  | Conf true (Some _) => True
  | _ => snd (step iv s (Answer now r)) = [OFailed]
  end.
Proof.
  intros H NT X. apply happened_inv in H.
  assert (L : thr s <> Dead) by (rewrite (v_dead _ _ _ _ H); auto).
  destruct (v_ep1 _ _ _ _ H L _ _ X) as (past & c & rest & got & U & -> & St).
  unfold step. rewrite U. destruct r as [[ | ] [res | ] | | ]; cbn; auto.
Qed.

Lemma answer_good t0 iv s h now res cs rs : happened t0 iv s h -> ~ terminated h -> episode h cs rs ->
  match nth_error cs (S (List.length rs)) with
  | Some c => (short c -> snd (step iv s (Answer now (Conf true (Some res)))) = [OAsk c]) /\
              (~ short c -> snd (step iv s (Answer now (Conf true (Some res)))) = [OTerminate])
  | None => exists ws, stored cs (rs ++ [Conf true (Some res)]) ws /\
              snd (step iv s (Answer now (Conf true (Some res)))) = ws ++ [ODone]
  end.
Proof.
  intros H NT X. apply happened_inv in H.
  assert (L : thr s <> Dead) by (rewrite (v_dead _ _ _ _ H); auto).
  destruct (v_ep1 _ _ _ _ H L _ _ X) as (past & c & rest & got & U & -> & St).
  pose proof (stored_length _ _ _ St) as Ln.
  assert (E : nth_error (past ++ c :: rest) (S (List.length rs)) = nth_error rest 0).
  { rewrite nth_error_app2 by lia. rewrite Ln. replace (S (List.length rs) - List.length rs)%nat with 1%nat by lia. reflexivity. }
  rewrite E. unfold step. rewrite U. cbn [status_of].
  destruct (ask_spec iv s now rest (got ++ [(hash_of c, res)])) as [(-> & A) | [(c' & rest' & -> & Sh & A) | (c' & rest' & -> & Sh & A)]]; rewrite A; cbn [snd nth_error].
  - exists (writes (got ++ [(hash_of c, res)])). split; [ | reflexivity].
    unfold writes. rewrite map_app. cbn. now apply stored_app.
  - split; tauto.
  - split; tauto.
Qed.

(** Something is stored only if all is. *)
Lemma write_only t0 iv s h o w x : happened t0 iv s h -> In (OWrite w x) (snd (step iv s o)) ->
  exists now r cs rs ws, o = Answer now r /\ episode h cs rs /\ stored cs (rs ++ [r]) ws /\ snd (step iv s o) = ws ++ [ODone].
Proof.
  intros H I. pose proof (happened_inv _ _ _ _ H) as V.
  assert (U : exists now r c rest got, o = Answer now r /\ thr s = Updating c rest got).
  { revert I. unfold step. destruct (thr s) as [ | | c rest got | ]; destruct o as [ | | now | now cs | now r]; cbn [snd]; eauto 10;
      try (intros []; fail); try (destruct (running s); cbn; intuition discriminate); try (cbn; intuition discriminate).
    destruct (running s); [destruct (now <=? deadline s) | ]; cbn [snd]; try (intros []; fail); try (cbn; intuition discriminate).
    destruct (ask_spec iv s now cs []) as [(-> & E) | [(c' & rest' & -> & Sh & E) | (c' & rest' & -> & Sh & E)]]; rewrite E; cbn; intuition discriminate. }
  destruct U as (now & r & c & rest & got & -> & T).
  destruct (v_ep _ _ _ _ V _ _ _ T) as (cs & rs & X).
  assert (NT : ~ terminated h) by (rewrite <- (v_dead _ _ _ _ V), T; discriminate).
  pose proof (answer_bad _ _ _ _ now r _ _ H NT X) as B.
  destruct r as [[ | ] [res | ] | | ]; try (rewrite B in I; exfalso; revert I; nin).
  pose proof (answer_good _ _ _ _ now res _ _ H NT X) as G.
  destruct (nth_error cs (S (List.length rs))) as [c' | ].
  - destruct G as (G1 & G2). destruct (sendable c') eqn:E.
    + rewrite (G1 (proj1 (sendable_short c') E)) in I. exfalso. revert I. nin.
    + rewrite G2 in I by (rewrite <- sendable_short, E; discriminate). exfalso. revert I. nin.
  - destruct G as (ws & G1 & G2). exists now, (Conf true (Some res)), cs, rs, ws. auto.
Qed.

(** While an update is under way every caller has to wait. *)
Lemma blocked t0 iv s h o cs rs : happened t0 iv s h -> ~ terminated h -> episode h cs rs ->
  o = Start \/ o = Stop \/ (exists now, o = Trigger now) -> step iv s o = (s, [OBlocked]).
Proof.
  intros H NT X O. apply happened_inv in H.
  assert (L : thr s <> Dead) by (rewrite (v_dead _ _ _ _ H); auto).
  destruct (v_ep1 _ _ _ _ H L _ _ X) as (past & c & rest & got & U & _ & _).
  unfold step. rewrite U. destruct O as [-> | [-> | (now & ->)]]; reflexivity.
Qed.

(** The reading thread behind the trigger. *)
Fixpoint no_timeout (os : list sop) : bool :=
  match os with [] => true | STimeout _ :: _ => false | _ :: os => no_timeout os end.
Lemma held iv c rest got d r os : forall box hd s',
  no_timeout os = true -> fst (sys_run iv (System (Ocsp d r (Updating c rest got)) (MSigned :: box) hd) os) = s' ->
  sys s' = Ocsp d r (Updating c rest got) /\ handled s' = hd /\ exists more, inbox s' = MSigned :: box ++ more.
Proof.
  induction os as [ | o os IH]; intros box hd s' N E.
  - cbn in E. subst s'. cbn. repeat split. exists []. now rewrite app_nil_r.
  - destruct o as [now | now cs | now | m]; cbn [no_timeout] in N; try discriminate.
    + cbn in E. destruct (sys_run iv _ os) as [s2 l2] eqn:R in E. cbn in E. subst s2.
      apply (IH box hd s' N). now rewrite R.
    + cbn in E. destruct (sys_run iv _ os) as [s2 l2] eqn:R in E. cbn in E. subst s2.
      apply (IH box hd s' N). now rewrite R.
    + cbn in E. destruct (sys_run iv _ os) as [s2 l2] eqn:R in E. cbn in E. subst s2.
      destruct (IH (box ++ [m]) hd s' N) as (A & B & more & M); [now rewrite R |].
      repeat split; auto. exists (m :: more). rewrite M, <- app_assoc. reflexivity.
Qed.
