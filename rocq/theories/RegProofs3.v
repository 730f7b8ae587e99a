(** Proofs for the registration of an OCPP 2.x station, part 3: what the CSMS knows of the connectors. *)
From Coq Require Import String ZArith NArith List Bool Lia.
From Verif Require Import RegModel RegSpec RegProofs RegProofs2.
Import ListNotations.
Local Open Scope Z_scope.

Definition heard_of (c : Z) (a : option N) (l : list out) : option N := fold_left (told1 c) l a.
Lemma heard_app c a l m : heard_of c a (l ++ m) = heard_of c (heard_of c a l) m.
Proof. unfold heard_of. apply fold_left_app. Qed.
(** The station may report. *)
Definition free (s : st) : Prop := connected s = true /\ registered s = Accepted.
Lemma notify_free b k s : free s ->
  notify b k s = if negb b || negb (N.eqb (reported s k) (status s k)) then (set_reported (upd (reported s) k (status s k)) s, [OStatus k (status s k)]) else (s, []).
Proof. intros [C R]. unfold notify. rewrite C, R. cbn [reg_eqb]. now rewrite !andb_true_r. Qed.
(** A connector whose status has been reported stays so. *)
Definition fresh_of (c : Z) (s : st) (a : option N) : Prop := reported s c = status s c /\ a = Some (status s c).
Lemma notify_fresh b k c s a : free s -> fresh_of c s a -> let r := notify b k s in
  free (fst r) /\ status (fst r) = status s /\ fresh_of c (fst r) (heard_of c a (snd r)).
Proof.
  intros F [X Y]. cbn zeta. rewrite notify_free; auto. destruct (_ || _); [ | repeat split; auto; apply F ].
  cbn [fst snd]. split; [ exact F | ]. split; [ reflexivity | ]. unfold fresh_of. cbn [reported set_reported status heard_of fold_left told1]. unfold upd.
  rewrite (Z.eqb_sym c k). destruct (k =? c) eqn:E; auto. apply Z.eqb_eq in E. subst. auto.
Qed.
Lemma notify_all_fresh b l c s a : free s -> fresh_of c s a -> let r := notify_all b l s in
  free (fst r) /\ status (fst r) = status s /\ fresh_of c (fst r) (heard_of c a (snd r)).
Proof.
  revert s a. induction l as [ | k l IH ]; intros s a F X; cbn zeta. { cbn. split; auto. }
  cbn [notify_all]. assert (H := notify_fresh b k c s a F X). cbn zeta in H. destruct (notify b k s) as [s1 o1]. cbn [fst snd] in H. destruct H as (F1 & E1 & X1).
  specialize (IH s1 _ F1 X1). cbn zeta in IH. destruct (notify_all b l s1) as [s2 o2]. cbn [fst snd] in *. destruct IH as (F2 & E2 & X2). split; auto. split; [ congruence | ]. rewrite heard_app. exact X2.
Qed.
(** Reporting all, or all that have changed, leaves every connector reported. *)
Lemma notify_reports b k s a : free s -> (b = true -> a = Some (reported s k)) -> let r := notify b k s in
  free (fst r) /\ status (fst r) = status s /\ fresh_of k (fst r) (heard_of k a (snd r)).
Proof.
  intros F X. cbn zeta. rewrite notify_free; auto. destruct (negb b || _) eqn:E.
  - cbn [fst snd]. split; [ exact F | ]. split; [ reflexivity | ]. unfold fresh_of. cbn [reported set_reported status heard_of fold_left told1]. unfold upd. now rewrite Z.eqb_refl.
  - cbn [fst snd heard_of fold_left]. split; auto. split; auto. apply orb_false_iff in E as [E1 E2]. apply negb_false_iff in E1, E2. subst b. apply N.eqb_eq in E2. split; auto. rewrite X; auto. now rewrite E2.
Qed.
Lemma notify_other b k c s a : free s -> k <> c -> (b = true -> a = Some (reported s c)) -> let r := notify b k s in
  free (fst r) /\ status (fst r) = status s /\ (b = true -> heard_of c a (snd r) = Some (reported (fst r) c)).
Proof.
  intros F N X. cbn zeta. rewrite notify_free; auto. destruct (negb b || _).
  - cbn [fst snd]. split; [ exact F | ]. split; [ reflexivity | ]. cbn [reported set_reported heard_of fold_left told1]. unfold upd. destruct (k =? c) eqn:E; [ apply Z.eqb_eq in E; congruence | ]. rewrite Z.eqb_sym, E. auto.
  - cbn. split; auto.
Qed.
Lemma notify_all_reports b l c s a : free s -> In c l -> (b = true -> a = Some (reported s c)) -> let r := notify_all b l s in
  status (fst r) = status s /\ fresh_of c (fst r) (heard_of c a (snd r)).
Proof.
  revert s a. induction l as [ | k l IH ]; intros s a F I X; [ destruct I | ]. cbn zeta. cbn [notify_all]. destruct (Z.eq_dec k c) as [ -> | N ].
  - assert (H := notify_reports b c s a F X). cbn zeta in H. destruct (notify b c s) as [s1 o1]. cbn [fst snd] in H. destruct H as (F1 & E1 & X1).
    assert (H := notify_all_fresh b l c s1 _ F1 X1). cbn zeta in H. destruct (notify_all b l s1) as [s2 o2]. cbn [fst snd] in *. destruct H as (F2 & E2 & X2). split; [ congruence | ]. rewrite heard_app. exact X2.
  - destruct I as [ I | I ]; [ congruence | ]. assert (H := notify_other b k c s a F N X). cbn zeta in H. destruct (notify b k s) as [s1 o1]. cbn [fst snd] in H. destruct H as (F1 & E1 & X1).
    specialize (IH s1 _ F1 I X1). cbn zeta in IH. destruct (notify_all b l s1) as [s2 o2]. cbn [fst snd] in *. destruct IH as (E2 & X2). split; [ congruence | ]. rewrite heard_app. exact X2.
Qed.
(** What is sent exactly. *)
Lemma notify_all_exact b l s : free s -> NoDup l ->
  snd (notify_all b l s) = flat_map (fun c => if negb b || negb (N.eqb (reported s c) (status s c)) then [OStatus c (status s c)] else []) l.
Proof.
  intros F D. revert s F. induction D as [ | k l N D IH ]; intros s F; auto. cbn [notify_all flat_map]. rewrite notify_free; auto.
  assert (G : forall f, (forall x, In x l -> f x = reported s x) -> snd (notify_all b l (set_reported f s)) = flat_map (fun c => if negb b || negb (N.eqb (reported s c) (status s c)) then [OStatus c (status s c)] else []) l).
  { intros f H. rewrite (IH (set_reported f s) F). cbn [reported status set_reported]. clear -H. induction l as [ | x l IH ]; auto. cbn [flat_map]. rewrite H by now left. rewrite IH; auto. intros y I. apply H. now right. }
  destruct (negb b || _).
  - specialize (G (upd (reported s) k (status s k))). destruct (notify_all b l (set_reported (upd (reported s) k (status s k)) s)) as [s2 o2]. cbn [snd app] in *. rewrite G; auto. intros x I. unfold upd. destruct (x =? k) eqn:E; auto. apply Z.eqb_eq in E. subst. contradiction.
  - specialize (IH s F). destruct (notify_all b l s) as [s2 o2]. cbn [snd app] in *. exact IH.
Qed.

(** *** The invariant *)
Definition known_of (c : Z) (s : st) (a : option N) : Prop :=
  dead s = false -> registered s = Accepted ->
  a = Some (reported s c) /\ (connected s = true -> reported s c = status s c) /\ (connected s = false -> lost s <> 0).
Lemma heard_none c a l : (forall k v, ~ In (OStatus k v) l) -> heard_of c a l = a.
Proof. induction l as [ | o l IH ]; intros H; auto. unfold heard_of in *. cbn [fold_left]. destruct o; cbn [told1]; try (apply IH; intros k w I; apply (H k w); now right). exfalso. eapply H. now left. Qed.
Lemma after_deed_quiet k d s x v : ~ In (OStatus x v) (snd (after_deed k d s)).
Proof. destruct d as [ | | [ | ] e ]; try destruct e; try destruct k; cbn; intros H; repeat (destruct H as [H | H]; [ discriminate | ]); auto. Qed.
Lemma handle_quiet p m s x v : ~ In (OStatus x v) (snd (handle p m s)).
Proof.
  unfold handle. assert (N : ~ In (OStatus x v) (not_implemented (m_kind m))). { unfold not_implemented. destruct (m_kind m); cbn; intros H; repeat (destruct H as [H | H]; [ discriminate | ]); auto. }
  destruct (route (m_type m)) as [ b | ]; auto. destruct (there p b); auto. fold (read_deed m). assert (A := after_deed_quiet (m_kind m) (read_deed m) s x v). destruct (after_deed _ _ _) as [s1 o1]. cbn [snd] in A.
  destruct (dead s1). { cbn [snd]. intros [ H | H ]; [ discriminate | auto ]. }
  destruct (triggered_cases m s1) as [ -> | ( -> & _ )]; cbn [snd]; intros [ H | H ]; try discriminate; apply in_app_or in H as [ H | H ]; auto. destruct H as [ H | [] ]; discriminate.
Qed.
Lemma dispatch_quiet p m s x v : ~ In (OStatus x v) (snd (dispatch p m s)).
Proof.
  unfold dispatch. assert (E : forall c, ~ In (OStatus x v) [OError c]) by (intros c [ H | [] ]; discriminate).
  destruct (registered s); [ apply handle_quiet | | ]; repeat match goal with |- context [if ?b then _ else _] => destruct b end; try apply handle_quiet; try apply E; cbn [snd]; try (intros [ H | [] ]; discriminate).
  destruct (m_boot m) as [ [ | ] | e ]; [ apply handle_quiet | apply E | ]. destruct e; cbn [snd caught]; unfold not_implemented; destruct (m_kind m); cbn; intros H; repeat (destruct H as [H | H]; [ discriminate | ]); auto.
Qed.
Lemma known_step c k o s a K : c_connectors k = K -> In c K -> set_up K (k, o) -> match o with Confirmed _ _ => connected s = true | _ => True end ->
  known_of c s a -> known_of c (fst (step k o s)) (heard_of c a (snd (step k o s))).
Proof.
  intros KK IC SU IT X. destruct (dead s) eqn:D. { intros E. rewrite step_dead in E by exact D. cbn [fst] in E. congruence. }
  intros ND AC. specialize (X D).
  destruct o as [ reason | | | r i | | | m | b | v | now | now | x v ].
  - unfold step in *. rewrite D in *. cbn in *. auto.
  - unfold step in *. rewrite D in *. cbn in *. auto.
  - unfold step in *. rewrite D in *. destruct (retry s); cbn in *; auto.
  - unfold step in *. rewrite D in *. destruct (boots s) as [ | b l ] eqn:E.
    + unfold confirm in *. rewrite E in *. rewrite (heard_none c a) by (intros; apply dispatch_quiet). destruct (stray (c_parts k) Result s) as [Q _]. rewrite Q in *. auto.
    + destruct (confirm_cases k r i s b l D E) as [ (R & W) | [ (R & Y & Z & W) | (R & _ & o1 & o2 & f & O1 & N & W) ] ]; rewrite W in *; cbn [fst snd] in *.
      * cbn in AC. congruence.
      * exfalso. destruct SU as (_ & SU & _). now apply SU in Y.
      * destruct (thread s); [ cbn in ND; discriminate | ].
        assert (F : free (boot_state i l s)) by (split; [ exact IT | reflexivity ]).
        assert (H := notify_all_reports false (c_connectors k) c (boot_state i l s) (heard_of c a (OGiven Provisioning :: o1 ++ [OConfirmed])) F). rewrite KK in *. specialize (H IC). cbn zeta in H. rewrite N in H. cbn [fst snd] in H. destruct H as [_ [H1 H2]]; [ discriminate | ].
        replace (OGiven Provisioning :: o1 ++ OConfirmed :: o2 ++ [ORegistered Accepted]) with ((OGiven Provisioning :: o1 ++ [OConfirmed]) ++ o2 ++ [ORegistered Accepted]) by (cbn; now rewrite <- app_assoc).
        rewrite !heard_app, H2. cbn [reported status connected set_thread set_reported] in *. cbn [heard_of fold_left told1].
        split; [ now rewrite H1 | ]. split; [ now intros _ | ]. intros C. change (connected s = false) in C. congruence.
  - unfold step in *. rewrite D in *. destruct (boot_failed_fields k s) as (l & E & _). cbn [fst snd] in *. rewrite E in *. auto.
  - assert (Q := errored_state k s D). destruct (boot_failed_fields k s) as (l & E & _). rewrite E in Q. rewrite Q in *. unfold step. rewrite D. rewrite (heard_none c a) by (intros; apply dispatch_quiet). auto.
  - assert (C := dispatch_calm (c_parts k) m s D). unfold step in *. rewrite D in *. rewrite (heard_none c a) by (intros; apply dispatch_quiet). destruct C as [ Q | [ ( Q & _ ) | ( Q & _ ) ] ]; rewrite Q in *; auto.
  - unfold step in *. rewrite D in *. cbn in *. auto.
  - unfold step in *. rewrite D in *. cbn [fst snd heard_of fold_left] in *. destruct (reg_eqb (registered s) Accepted); cbn in *; auto.
  - assert (AC' : registered s = Accepted). { destruct (connected_state k now s D) as [f Q]. rewrite Q in AC. destruct (_ && _); exact AC. }
    specialize (X AC'). destruct X as (X1 & X2 & X3). unfold step. rewrite D. cbn [registered set_connected]. rewrite AC'. cbn [reg_eqb lost set_connected]. destruct (lost s =? 0) eqn:L; cbn [negb].
    + apply Z.eqb_eq in L. cbn [fst snd heard_of fold_left told1]. cbn [reported status connected lost set_lost set_connected]. split; auto. destruct (connected s); [ | now destruct X3 ]. split; auto. discriminate.
    + assert (F : free (set_connected true s)) by (split; auto).
      assert (H := notify_all_reports (negb (second * c_threshold k <? now - lost s)) (c_connectors k) c (set_connected true s) a F). rewrite KK in *. specialize (H IC (fun _ => X1)). cbn zeta in H.
      destruct (notify_all_state (negb (second * c_threshold k <? now - lost s)) K (set_connected true s)) as [f Q]. destruct (notify_all _ K _) as [s1 o1]. cbn [fst snd] in *. subst s1. destruct H as [_ [H1 H2]].
      change (heard_of c a (OConfirmed :: o1)) with (heard_of c a o1). rewrite H2. cbn [reported status connected lost set_lost set_checks set_reported set_connected] in *. split; [ now rewrite H1 | ]. split; auto. discriminate.
  - unfold step in *. rewrite D in *. destruct SU as (_ & _ & T & TN). cbn [fst snd heard_of fold_left] in *. destruct (c_threshold k =? 0) eqn:Z0; [ apply Z.eqb_eq in Z0; congruence | ]. cbn in *. destruct (X AC) as (X1 & X2 & X3). repeat split; auto. discriminate.
  - assert (AC' : registered s = Accepted). { destruct (changed_state k x v s D) as [f Q]. rewrite Q in AC. exact AC. }
    destruct (X AC') as (X1 & X2 & X3). unfold step. rewrite D. destruct (connected s) eqn:CN.
    + assert (F : free (set_status (upd (status s) x v) s)) by (split; auto). destruct (Z.eq_dec x c) as [ -> | N ].
      * assert (H := notify_reports true c (set_status (upd (status s) c v) s) a F (fun _ => X1)). cbn zeta in H. destruct (notify _ _ _) as [s1 o1]. cbn [fst snd] in *. destruct H as (F1 & _ & H1 & H2). rewrite H2. split; [ now rewrite H1 | ]. split; auto. destruct F1 as [C1 _]. congruence.
      * assert (H := notify_fresh true x c (set_status (upd (status s) x v) s) a F). cbn zeta in H.
        assert (XX : fresh_of c (set_status (upd (status s) x v) s) a). { unfold fresh_of. cbn [reported status set_status]. unfold upd. destruct (c =? x) eqn:E; [ apply Z.eqb_eq in E; congruence | ]. rewrite X1, X2; auto. }
        specialize (H XX). destruct (notify _ _ _) as [s1 o1]. cbn [fst snd] in *. destruct H as (F1 & _ & H1 & H2). rewrite H2. split; [ now rewrite H1 | ]. split; auto. destruct F1 as [C1 _]. congruence.
    + unfold notify. cbn [connected set_status]. rewrite CN. rewrite andb_false_r. cbn [andb fst snd heard_of fold_left]. split; auto. split; auto. cbn. congruence.
Qed.
Lemma link_step k o s : dead s = false -> connected (fst (step k o s)) = link1 (connected s) (k, o).
Proof.
  intros D. unfold link1. cbn [snd]. destruct o as [ reason | | | r i | | | m | b | v | now | now | x v ].
  - now simple_step D. - now simple_step D. - unfold step. rewrite D. destruct (retry s); reflexivity.
  - unfold step. rewrite D. destruct (boots s) as [ | b l ] eqn:E.
    + unfold confirm. rewrite E. destruct (stray (c_parts k) Result s) as [ -> _ ]. reflexivity.
    + destruct (confirm_cases k r i s b l D E) as [ (R & ->) | [ (R & _ & _ & ->) | (R & _ & o1 & o2 & f & _ & _ & ->) ] ]; subst; cbn [fst snd]; auto. destruct (thread s); reflexivity.
  - unfold step. rewrite D. destruct (boot_failed_fields k s) as (l & E & _). cbn [fst]. now rewrite E.
  - rewrite errored_state; auto. destruct (boot_failed_fields k s) as (l & E & _). now rewrite E.
  - assert (C := dispatch_calm (c_parts k) m s D). unfold step. rewrite D. destruct C as [ -> | [ ( -> & _ ) | ( -> & _ ) ] ]; reflexivity.
  - now simple_step D.
  - unfold step. rewrite D. cbn [fst]. destruct (reg_eqb (registered s) Accepted); reflexivity.
  - destruct (connected_state k now s D) as [f ->]. destruct (_ && _); reflexivity.
  - unfold step. rewrite D. cbn [fst]. destruct (negb _); reflexivity.
  - destruct (changed_state k x v s D) as [f ->]. reflexivity.
Qed.
Lemma status_step k o s c : dead s = false -> status (fst (step k o s)) c = now1 c (status s c) (k, o).
Proof.
  intros D. unfold now1. cbn [snd]. destruct o as [ reason | | | r i | | | m | b | v | now | now | x v ].
  - now simple_step D. - now simple_step D. - unfold step. rewrite D. destruct (retry s); reflexivity.
  - unfold step. rewrite D. destruct (boots s) as [ | b l ] eqn:E.
    + unfold confirm. rewrite E. destruct (stray (c_parts k) Result s) as [ -> _ ]. reflexivity.
    + destruct (confirm_cases k r i s b l D E) as [ (R & ->) | [ (R & _ & _ & ->) | (R & _ & o1 & o2 & f & _ & _ & ->) ] ]; subst; cbn [fst snd]; auto. destruct (thread s); reflexivity.
  - unfold step. rewrite D. destruct (boot_failed_fields k s) as (l & E & _). cbn [fst]. now rewrite E.
  - rewrite errored_state; auto. destruct (boot_failed_fields k s) as (l & E & _). now rewrite E.
  - assert (C := dispatch_calm (c_parts k) m s D). unfold step. rewrite D. destruct C as [ -> | [ ( -> & _ ) | ( -> & _ ) ] ]; reflexivity.
  - now simple_step D.
  - unfold step. rewrite D. cbn [fst]. destruct (reg_eqb (registered s) Accepted); reflexivity.
  - destruct (connected_state k now s D) as [f ->]. destruct (_ && _); reflexivity.
  - unfold step. rewrite D. cbn [fst]. destruct (negb _); reflexivity.
  - destruct (changed_state k x v s D) as [f ->]. cbn [status set_reported set_status]. unfold upd. now rewrite Z.eqb_sym.
Qed.
Lemma run_link h s : dead (run h s) = false -> connected (run h s) = fold_left link1 h (connected s).
Proof.
  revert s. induction h as [ | [k o] h IH ]; intros s ND; auto. cbn [run fold_left] in *. destruct (dead s) eqn:D. { rewrite step_dead in ND by exact D. cbn [fst] in ND. rewrite run_dead in ND; auto. congruence. }
  rewrite IH; auto. now rewrite link_step.
Qed.
Lemma run_status h s c : dead (run h s) = false -> status (run h s) c = fold_left (now1 c) h (status s c).
Proof.
  revert s. induction h as [ | [k o] h IH ]; intros s ND; auto. cbn [run fold_left] in *. destruct (dead s) eqn:D. { rewrite step_dead in ND by exact D. cbn [fst] in ND. rewrite run_dead in ND; auto. congruence. }
  rewrite IH; auto. now rewrite status_step.
Qed.
Lemma run_known c K h s a : In c K -> Forall (set_up K) h -> in_time (connected s) h -> known_of c s a -> known_of c (run h s) (heard_of c a (flat_map snd (events h s))).
Proof.
  revert s a. induction h as [ | [k o] h IH ]; intros s a IC F T X; auto. inversion F as [ | x y F1 F2 ]; subst. cbn [in_time snd] in T. destruct T as [T1 T2].
  destruct (dead s) eqn:D. { intros E. rewrite run_dead in E; auto. congruence. }
  assert (H := known_step c k o s a K (proj1 F1) IC F1 T1 X). rewrite <- (link_step k o s D) in T2. cbn [run events]. destruct (step k o s) as [s1 l]. cbn [fst snd flat_map] in *. rewrite heard_app. now apply IH.
Qed.

(** *** The certificate checks *)
Definition no_stop (e : cfg * op) : Prop := match snd e with Stop => False | _ => True end.
Definition checked (s : st) : Prop := dead s = false -> registered s = Accepted -> (connected s = true -> checks s = true) /\ (connected s = false -> lost s <> 0).
Lemma checked_step k o s K : set_up K (k, o) -> no_stop (k, o) -> match o with Confirmed _ _ => connected s = true | _ => True end -> checked s -> checked (fst (step k o s)).
Proof.
  intros SU NS IT X. destruct (dead s) eqn:D. { intros E. rewrite step_dead in E by exact D. cbn [fst] in E. congruence. }
  intros ND AC. specialize (X D).
  destruct o as [ reason | | | r i | | | m | b | v | now | now | x v ].
  - unfold step in *. rewrite D in *. cbn in *. auto.
  - destruct NS.
  - unfold step in *. rewrite D in *. destruct (retry s); cbn in *; auto.
  - unfold step in *. rewrite D in *. destruct (boots s) as [ | b l ] eqn:E.
    + unfold confirm in *. rewrite E in *. destruct (stray (c_parts k) Result s) as [Q _]. rewrite Q in *. auto.
    + destruct (confirm_cases k r i s b l D E) as [ (R & W) | [ (R & Y & Z & W) | (R & _ & o1 & o2 & f & O1 & N & W) ] ]; rewrite W in *; cbn [fst snd] in *.
      * cbn in AC. congruence.
      * exfalso. destruct SU as (_ & SU & _). now apply SU in Y.
      * destruct (thread s); [ cbn in ND; discriminate | ]. split; [ reflexivity | ]. intros C. change (connected s = false) in C. congruence.
  - unfold step in *. rewrite D in *. destruct (boot_failed_fields k s) as (l & E & _). cbn [fst] in *. rewrite E in *. auto.
  - assert (Q := errored_state k s D). destruct (boot_failed_fields k s) as (l & E & _). rewrite E in Q. rewrite Q in *. auto.
  - assert (C := dispatch_calm (c_parts k) m s D). unfold step in *. rewrite D in *. destruct C as [ Q | [ ( Q & _ ) | ( Q & _ ) ] ]; rewrite Q in *; auto.
  - unfold step in *. rewrite D in *. cbn in *. auto.
  - unfold step in *. rewrite D in *. cbn [fst] in *. destruct (reg_eqb (registered s) Accepted); cbn in *; auto.
  - destruct (connected_state k now s D) as [f Q]. rewrite Q in *. destruct (reg_eqb (registered s) Accepted && negb (lost s =? 0)) eqn:E.
    + split; [ reflexivity | discriminate ].
    + cbn in AC. destruct (X AC) as [X1 X2]. rewrite AC in E. cbn [reg_eqb andb] in E. apply negb_false_iff, Z.eqb_eq in E. split; [ | discriminate ]. intros _. cbn [checks set_lost set_connected]. destruct (connected s); [ auto | now destruct X2 ].
  - unfold step in *. rewrite D in *. destruct SU as (_ & _ & T & TN). cbn [fst] in *. destruct (c_threshold k =? 0) eqn:Z0; [ apply Z.eqb_eq in Z0; congruence | ]. cbn in *. split; [ discriminate | auto ].
  - destruct (changed_state k x v s D) as [f Q]. rewrite Q in *. exact (X AC).
Qed.
Lemma run_checked K h s : Forall (set_up K) h -> Forall no_stop h -> in_time (connected s) h -> checked s -> checked (run h s).
Proof.
  revert s. induction h as [ | [k o] h IH ]; intros s F N T X; auto. inversion F as [ | x y F1 F2 ]; subst. inversion N as [ | x y N1 N2 ]; subst. cbn [in_time snd] in T. destruct T as [T1 T2].
  destruct (dead s) eqn:D. { intros E. rewrite run_dead in E; auto. congruence. }
  assert (H := checked_step k o s K F1 N1 T1 X). rewrite <- (link_step k o s D) in T2. cbn [run]. now apply IH.
Qed.
(** When the connection was lost. *)
Lemma lost_step k o s a K : set_up K (k, o) -> dead s = false -> lost s = match a with Some t => t | None => 0 end -> (forall t, a = Some t -> t <> 0) ->
  lost (fst (step k o s)) = match lost1 a (k, o) with Some t => t | None => 0 end /\ (forall t, lost1 a (k, o) = Some t -> t <> 0).
Proof.
  intros SU D L P. unfold lost1. cbn [snd]. destruct o as [ reason | | | r i | | | m | b | v | now | now | x v ].
  - simple_step D. auto. - simple_step D. auto. - unfold step. rewrite D. destruct (retry s); auto.
  - unfold step. rewrite D. destruct (boots s) as [ | b l ] eqn:E.
    + unfold confirm. rewrite E. destruct (stray (c_parts k) Result s) as [ -> _ ]. auto.
    + destruct (confirm_cases k r i s b l D E) as [ (R & ->) | [ (R & _ & _ & ->) | (R & _ & o1 & o2 & f & _ & _ & ->) ] ]; subst; cbn [fst snd]; auto. destruct (thread s); auto.
  - unfold step. rewrite D. destruct (boot_failed_fields k s) as (l & E & _). cbn [fst]. rewrite E. auto.
  - rewrite errored_state; auto. destruct (boot_failed_fields k s) as (l & E & _). rewrite E. auto.
  - assert (C := dispatch_calm (c_parts k) m s D). unfold step. rewrite D. destruct C as [ -> | [ ( -> & _ ) | ( -> & _ ) ] ]; auto.
  - simple_step D. auto.
  - unfold step. rewrite D. cbn [fst]. destruct (reg_eqb (registered s) Accepted); auto.
  - destruct (connected_state k now s D) as [f ->]. destruct (_ && _); (split; [ reflexivity | discriminate ]).
  - unfold step. rewrite D. destruct SU as (_ & _ & T & TN). cbn [fst]. destruct (c_threshold k =? 0) eqn:Z0; [ apply Z.eqb_eq in Z0; congruence | ]. cbn. split; auto. intros t E. congruence.
  - destruct (changed_state k x v s D) as [f ->]. auto.
Qed.
Lemma run_lost K h s a : Forall (set_up K) h -> dead (run h s) = false -> lost s = match a with Some t => t | None => 0 end -> (forall t, a = Some t -> t <> 0) ->
  lost (run h s) = match fold_left lost1 h a with Some t => t | None => 0 end /\ (forall t, fold_left lost1 h a = Some t -> t <> 0).
Proof.
  revert s a. induction h as [ | [k o] h IH ]; intros s a F ND L P; auto. inversion F as [ | x y F1 F2 ]; subst. cbn [run fold_left] in *. destruct (dead s) eqn:D. { rewrite step_dead in ND by exact D. cbn [fst] in ND. rewrite run_dead in ND; auto. congruence. }
  destruct (lost_step k o s a K F1 D L P). now apply IH.
Qed.
