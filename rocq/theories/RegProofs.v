(** Proofs for the registration of an OCPP 2.x station, part 1: what a single call does. *)
From Coq Require Import String ZArith List Bool Lia.
From Verif Require Import RegModel RegSpec.
Import ListNotations.
Local Open Scope Z_scope.

Lemma reg_eqb_eq a b : reg_eqb a b = true <-> a = b.
Proof. destruct a, b; cbn; split; congruence. Qed.
Lemma mem_in t l : mem t l = true <-> In t l.
Proof. unfold mem. rewrite existsb_exists. split. - intros (x & I & E). apply String.eqb_eq in E. now subst. - intros I. exists t. split; auto. apply String.eqb_refl. Qed.

(** The two tables agree. *)
Definition names : list string := map fst dealt_with.
Lemma in_names t : In t names \/ (route t = None /\ forall p, known p t = false).
Proof.
  destruct (in_dec string_dec t names) as [ I | N ]; [ left; exact I | right ].
  assert (F : forall l, (forall b x, In (b, x) l -> forall y, In y x -> In y names) -> find (fun e : block * list string => mem t (snd e)) l = None).
  { induction l as [ | [b x] l IH ]; intros H; auto. cbn [find snd]. destruct (mem t x) eqn:M. - apply mem_in in M. exfalso. apply N. now apply (H b x (or_introl eq_refl)). - apply IH. intros b' x' I'. apply (H b' x'). now right. }
  assert (A : forallb (fun e : block * list string => forallb (fun y => mem y names) (snd e)) route_table = true) by (vm_compute; reflexivity).
  split.
  - unfold route. rewrite (F route_table); auto. intros b x I y J. rewrite forallb_forall in A. specialize (A _ I). cbn [snd] in A. rewrite forallb_forall in A. now apply mem_in, A.
  - intros p. unfold known. destruct (find _ dealt_with) as [ [n f] | ] eqn:E; auto. apply find_some in E as [I E]. cbn [fst] in E. apply String.eqb_eq in E. subst n. exfalso. apply N. apply (in_map fst) in I. exact I.
Qed.
Lemma tables_agree p t : known p t = match route t with Some b => there p b | None => false end.
Proof.
  destruct (in_names t) as [ I | [ -> K ] ]; [ | apply K ]. unfold names in I. cbn [map fst dealt_with] in I.
  repeat (destruct I as [ <- | I ]; [ vm_compute; reflexivity | ]). destruct I.
Qed.

(** *** Messages *)
Lemma after_deed_state k d s : fst (after_deed k d s) = match d with Throws _ Any => set_dead true s | _ => s end.
Proof. destruct d as [ | | a x ]; auto. destruct x; reflexivity. Qed.
Lemma set_dead_id s : dead s = false -> set_dead (dead s) s = s.
Proof. destruct s; reflexivity. Qed.
Definition read_deed (m : message) : deed := if String.eqb (m_type m) "BootNotificationResponse" then Throws false Json else m_deed m.
Lemma triggered_cases m s : triggered m s = (s, []) \/ (triggered m s = (set_boots (0 :: boots s) s, [OBoot "Triggered"]) /\ registered s <> Accepted /\ m_boot m = inl true /\ m_type m = "TriggerMessage"%string /\ m_deed m = Answers).
Proof.
  unfold triggered. destruct (m_deed m); auto. destruct (m_boot m) as [ [ | ] | ]; auto. destruct (String.eqb _ _) eqn:E; auto.
  destruct (reg_eqb (registered s) Accepted) eqn:R; cbn [andb negb]; auto. right. apply String.eqb_eq in E.
  repeat split; auto. intros C. rewrite C in R. discriminate.
Qed.
Definition calm (m : message) (s : st) (r : st * list out) : Prop :=
  fst r = s \/ (fst r = set_dead true s /\ exists a, (m_deed m = Throws a Any \/ m_boot m = inr Any))
  \/ (fst r = set_boots (0 :: boots s) s /\ registered s <> Accepted /\ m_boot m = inl true /\ m_type m = "TriggerMessage"%string /\ m_deed m = Answers /\ In (OBoot "Triggered") (snd r)).
Lemma handle_calm p m s : dead s = false -> calm m s (handle p m s).
Proof.
  intros D. unfold handle, calm. destruct (route (m_type m)) as [ b | ]; [ | now left ]. destruct (there p b); [ | now left ].
  fold (read_deed m). assert (A := after_deed_state (m_kind m) (read_deed m) s). destruct (after_deed (m_kind m) (read_deed m) s) as [s1 o1]. cbn [fst] in A.
  assert (B : s1 = s \/ s1 = set_dead true s /\ exists a, read_deed m = Throws a Any). { destruct (read_deed m) as [ | | a x ]; auto. destruct x; auto. right. eauto. }
  destruct B as [ -> | ( -> & a & E )].
  - rewrite D. destruct (triggered_cases m s) as [ -> | ( -> & R & M & T & X )]; cbn [fst snd]; [ now left | ]. right. right. repeat split; auto. cbn [In]. right. apply in_or_app. right. now left.
  - cbn [dead set_dead fst]. right. left. split; auto. exists a. left. unfold read_deed in E. destruct (String.eqb _ _); [ discriminate | auto ].
Qed.
Lemma dispatch_calm p m s : dead s = false -> calm m s (dispatch p m s).
Proof.
  intros D. unfold dispatch. destruct (registered s).
  - now apply handle_calm.
  - destruct (String.eqb _ _); [ now apply handle_calm | ]. destruct (mem _ _); [ now apply handle_calm | ]. destruct (String.eqb (m_type m) "RequestStartTransaction"); [ now left | ]. destruct (String.eqb _ _); now left.
  - destruct (String.eqb _ _); [ now apply handle_calm | ]. destruct (String.eqb (m_type m) "TriggerMessage"); [ | now left ].
    destruct (m_boot m) as [ [ | ] | x ] eqn:E; [ now apply handle_calm | now left | ]. destruct x; try now left. right. left. split; auto. exists false. now right.
Qed.

(** Whether a message is given to a block. *)
Lemma handle_given p m s : given (snd (handle p m s)) <-> known p (m_type m) = true.
Proof.
  rewrite tables_agree. unfold handle, given. destruct (route (m_type m)) as [ b | ].
  2: { cbn [snd]. unfold not_implemented. destruct (m_kind m); cbn; split; try discriminate; intros (b & [ E | [] ]) || intros (b & []); discriminate. }
  destruct (there p b).
  - fold (read_deed m). destruct (after_deed (m_kind m) (read_deed m) s) as [s1 o1]. destruct (dead s1). + split; auto. intros _. exists b. now left. + destruct (triggered m s1) as [s2 o2]. split; auto. intros _. exists b. now left.
  - cbn [snd]. unfold not_implemented. destruct (m_kind m); cbn; split; try discriminate; intros (b' & [ E | [] ]) || intros (b' & []); discriminate.
Qed.
Lemma not_given_error code : ~ given [OError code].
Proof. intros (b & [ E | [] ]). discriminate. Qed.
Lemma dispatch_given p m s : given (snd (dispatch p m s)) <-> allowed (registered s) m /\ known p (m_type m) = true.
Proof.
  unfold dispatch, allowed. destruct (registered s).
  - rewrite handle_given. tauto.
  - destruct (String.eqb (m_type m) "BootNotificationResponse") eqn:E1. { apply String.eqb_eq in E1. rewrite handle_given, E1. cbn [In]. tauto. }
    apply String.eqb_neq in E1. destruct (mem (m_type m) while_pending) eqn:E2.
    { apply mem_in in E2. rewrite handle_given. cbn [In]. unfold while_pending in E2. cbn [In] in E2. tauto. }
    assert (N : ~ In (m_type m) while_pending). { intros C. apply mem_in in C. congruence. }
    assert (N' : ~ In (m_type m) ["BootNotificationResponse"; "GetVariables"; "SetVariables"; "GetBaseReport"; "GetReport"; "NotifyReportResponse"; "TriggerMessage"]%string). { intros [ C | C ]; [ congruence | now apply N ]. }
    destruct (String.eqb (m_type m) "RequestStartTransaction"). { cbn [snd]. split; [ intros (b & [ X | [] ]); discriminate | tauto ]. }
    destruct (String.eqb (m_type m) "RequestStopTransaction"). { cbn [snd]. split; [ intros (b & [ X | [] ]); discriminate | tauto ]. }
    cbn [snd]. split; [ intros C; now apply not_given_error in C | tauto ].
  - destruct (String.eqb (m_type m) "BootNotificationResponse") eqn:E1. { apply String.eqb_eq in E1. rewrite handle_given, E1. tauto. }
    apply String.eqb_neq in E1. destruct (String.eqb (m_type m) "TriggerMessage") eqn:E2.
    + apply String.eqb_eq in E2. destruct (m_boot m) as [ [ | ] | x ] eqn:B.
      * rewrite handle_given. tauto.
      * cbn [snd]. split; [ intros C; now apply not_given_error in C | ]. intros [ [ C | [_ C] ] _ ]; congruence.
      * assert (X : ~ given (snd (match x with Any => (set_dead true s, [ODead]) | _ => (s, caught (m_kind m) x) end))).
        { destruct x; cbn [snd caught]; unfold not_implemented; destruct (m_kind m); intros (b & H); cbn in H; repeat (destruct H as [H | H]; [ discriminate | ]); auto. }
        split. -- destruct x; intros C; now apply X in C. -- intros [ [ C | [_ C] ] _ ]; congruence.
    + apply String.eqb_neq in E2. cbn [snd]. split; [ intros C; now apply not_given_error in C | ]. intros [ [ C | [C _] ] _ ]; congruence.
Qed.
(** What is done with a message that is not given to a block. *)
Lemma handle_unknown p m s : known p (m_type m) = false -> handle p m s = (s, match m_kind m with Call => [OError "NotImplemented"] | _ => [] end).
Proof. rewrite tables_agree. unfold handle. destruct (route (m_type m)) as [ b | ]; [ intros -> | intros _ ]; unfold not_implemented; reflexivity. Qed.

(** How often a message is answered. *)
Lemma answers_app a b : answers (a ++ b) = (answers a + answers b)%nat.
Proof. unfold answers. now rewrite filter_app, app_length. Qed.
Lemma answers_cons a b : answers (a :: b) = ((if addressed a then 1 else 0) + answers b)%nat.
Proof. unfold answers. cbn [filter]. destruct (addressed a); reflexivity. Qed.
Lemma answers_triggered m s : answers (snd (triggered m s)) = 0%nat.
Proof. destruct (triggered_cases m s) as [ -> | ( -> & _ )]; reflexivity. Qed.
(** The answer a message gets from the block it belongs to. *)
Definition deed_answers (k : kind) (d : deed) : nat :=
  match d with
  | Answers => 1
  | Silent => 0
  | Throws a x => (if a then 1 else 0) + match x with Any => 0 | DeviceModel => 1 | _ => match k with Call => 1 | _ => 0 end end
  end.
Lemma answers_deed k d s : answers (snd (after_deed k d s)) = deed_answers k d.
Proof. destruct d as [ | | [ | ] x ]; try reflexivity; destruct x; destruct k; reflexivity. Qed.
Lemma handle_answers p m s : dead s = false ->
  answers (snd (handle p m s)) = if known p (m_type m) then deed_answers (m_kind m) (read_deed m) else match m_kind m with Call => 1%nat | _ => 0%nat end.
Proof.
  intros D. rewrite tables_agree. unfold handle. destruct (route (m_type m)) as [ b | ]; [ | destruct (m_kind m); reflexivity ]. destruct (there p b); [ | destruct (m_kind m); reflexivity ].
  fold (read_deed m). assert (A := answers_deed (m_kind m) (read_deed m) s). destruct (after_deed (m_kind m) (read_deed m) s) as [s1 o1]. cbn [snd] in A.
  destruct (dead s1). { cbn [snd]. rewrite answers_cons. cbn [addressed]. lia. }
  assert (T := answers_triggered m s1). destruct (triggered m s1) as [s2 o2]. cbn [snd] in *. rewrite answers_cons, answers_app. cbn [addressed]. lia.
Qed.

(** *** Connectors *)
Lemma notify_cases b c s : notify b c s = (s, []) \/ (exists f, notify b c s = (set_reported f s, [OStatus c (status s c)])).
Proof. unfold notify. destruct (_ && _); [ right; eauto | now left ]. Qed.
Lemma set_reported_twice f g s : set_reported f (set_reported g s) = set_reported f s.
Proof. reflexivity. Qed.
Lemma notify_all_state b l s : exists f, fst (notify_all b l s) = set_reported f s.
Proof.
  revert s. induction l as [ | c l IH ]; intros s. { exists (reported s). now destruct s. }
  cbn [notify_all]. assert (X : exists f, fst (notify b c s) = set_reported f s). { destruct (notify_cases b c s) as [ -> | [f ->] ]; [ exists (reported s); now destruct s | now exists f ]. }
  destruct X as [f X]. destruct (notify b c s) as [s1 o1]. cbn [fst] in X. subst s1.
  destruct (IH (set_reported f s)) as [g G]. destruct (notify_all b l (set_reported f s)) as [s2 o2]. cbn [fst] in *. exists g. rewrite G. reflexivity.
Qed.
Lemma notify_all_outs b l s o : In o (snd (notify_all b l s)) -> exists c v, o = OStatus c v.
Proof.
  revert s. induction l as [ | c l IH ]; intros s; cbn [notify_all]; [ intros [] | ].
  assert (X : forall o, In o (snd (notify b c s)) -> exists c v, o = OStatus c v). { intros o' I. destruct (notify_cases b c s) as [ E | [f E] ]; rewrite E in I; cbn in I; [ destruct I | ]. destruct I as [ <- | [] ]. eauto. }
  destruct (notify b c s) as [s1 o1]. specialize (IH s1). destruct (notify_all b l s1) as [s2 o2]. cbn [snd] in *. intros I. apply in_app_or in I as [ I | I ]; auto.
Qed.

(** *** The answer to a BootNotification.req *)
Definition boot_state (i : Z) (l : list Z) (s : st) : st :=
  set_checks true (set_retry None (set_heartbeat (if 0 <? i then Some i else heartbeat s) (set_registered Accepted (set_boots l s)))).
Lemma confirm_cases c r i s b l : dead s = false -> boots s = b :: l ->
  (r <> Accepted /\ confirm c r i s = (set_retry (Some (if 0 <? i then i else 30)) (set_registered r (set_boots l s)), [OGiven Provisioning; ORegistered r]))
  \/ (r = Accepted /\ c_sync c = true /\ c_source c = None /\ confirm c r i s = (set_registered Accepted (set_boots l s), [OGiven Provisioning; OError "GenericError"]))
  \/ (r = Accepted /\ (c_sync c = true -> c_source c <> None) /\ exists o1 o2 f,
       (o1 = [] \/ o1 = [OTime]) /\ notify_all false (c_connectors c) (boot_state i l s) = (set_reported f (boot_state i l s), o2)
       /\ confirm c r i s = (if thread s then set_dead true (set_reported f (boot_state i l s)) else set_thread true (set_reported f (boot_state i l s)),
                             OGiven Provisioning :: o1 ++ OConfirmed :: o2 ++ (if thread s then [ODead] else [ORegistered Accepted]))).
Proof.
  intros D B. unfold confirm. rewrite B. unfold boot_confirmed. destruct r.
  2: { left. split; [ discriminate | ]. cbn. rewrite D. reflexivity. }
  2: { left. split; [ discriminate | ]. cbn. rewrite D. reflexivity. }
  right. cbn [reg_eqb].
  assert (HX : set_checks true (set_retry None (if 0 <? i then set_heartbeat (Some i) (set_registered Accepted (set_boots l s)) else set_registered Accepted (set_boots l s))) = boot_state i l s)
    by (unfold boot_state; destruct (0 <? i); reflexivity).
  destruct (c_sync c) eqn:Y; [ destruct (c_source c) as [ src | ] eqn:Z | ].
  2: { left. repeat split; auto. cbn. rewrite D. reflexivity. }
  all: right; split; auto; split; [ discriminate | ].
  all: cbn zeta; rewrite HX.
  all: destruct (notify_all_state false (c_connectors c) (boot_state i l s)) as [f F]; destruct (notify_all false (c_connectors c) (boot_state i l s)) as [s2 o2]; cbn [fst] in F; subst s2.
  - exists (if by_heartbeat src then [OTime] else []), o2, f. split; [ destruct (by_heartbeat src); auto | ]. split; auto. cbn [andb]. unfold ocsp_start. cbn [thread set_reported boot_state set_checks set_retry set_heartbeat set_registered set_boots].
    destruct (thread s); [ reflexivity | ]. assert (DB : dead (set_thread true (set_reported f (boot_state i l s))) = false) by exact D. rewrite ?DB. cbn [after_deed]. rewrite ?DB, ?app_nil_r. reflexivity.
  - exists [], o2, f. split; auto. split; auto. cbn [andb app]. unfold ocsp_start. cbn [thread set_reported boot_state set_checks set_retry set_heartbeat set_registered set_boots].
    destruct (thread s); [ reflexivity | ]. assert (DB : dead (set_thread true (set_reported f (boot_state i l s))) = false) by exact D. rewrite ?DB. cbn [after_deed]. rewrite ?DB, ?app_nil_r. reflexivity.
Qed.
(** A CALLRESULT or CALLERROR that belongs to nothing changes nothing. *)
Lemma stray p k s : fst (dispatch p (Message k "InternalError" Silent (inl false)) s) = s /\ ~ given (snd (dispatch p (Message k "InternalError" Silent (inl false)) s)).
Proof.
  split.
  - unfold dispatch. destruct (registered s); reflexivity.
  - rewrite dispatch_given. intros [_ K]. discriminate.
Qed.
(** What is seen does not begin with a block if nothing is given to one. *)
Lemma stray_heard c r i p k s : heard (c, Confirmed r i, snd (dispatch p (Message k "InternalError" Silent (inl false)) s)) = None.
Proof. destruct (stray p k s) as [_ N]. cbn [heard]. destruct (snd (dispatch _ _ s)) as [ | o l ]; auto. destruct o; auto. exfalso. apply N. eexists. now left. Qed.

(** *** Histories *)
Lemma fold_inv {A} (R : st -> A -> Prop) (f : A -> cfg * op * list out -> A) :
  (forall c o s a, R s a -> R (fst (step c o s)) (f a (c, o, snd (step c o s)))) ->
  forall h s a, R s a -> R (run h s) (fold_left f (events h s) a).
Proof. intros H. induction h as [ | [c o] h IH ]; intros s a X; auto. cbn [run events]. specialize (H c o s a X). destruct (step c o s) as [s1 l]. cbn [fst snd fold_left] in *. auto. Qed.
Lemma run_app a b s : run (a ++ b) s = run b (run a s).
Proof. revert s. induction a as [ | [c o] a IH ]; intros s; cbn [run app]; auto. Qed.
Lemma events_app a b s : events (a ++ b) s = events a s ++ events b (run a s).
Proof. revert s. induction a as [ | [c o] a IH ]; intros s; cbn [run events app]; auto. specialize (IH (fst (step c o s))). destruct (step c o s) as [s1 l]. cbn [fst app] in *. now rewrite IH. Qed.
