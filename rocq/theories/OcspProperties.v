(** C112: the OCSP cache is updated when it is due, for all certificates or for none. *)
From Coq Require Import String ZArith List Bool Lia.
From Verif Require Import OcspModel OcspSpec OcspProofs.
Import ListNotations.
Local Open Scope string_scope.
Local Open Scope list_scope.
Local Open Scope Z_scope.

(** An update begins exactly when the thread is awake, has been started and not stopped, has no update under way and the
    time due has passed. *)
Theorem C112_begins t0 iv s h now cs : happened t0 iv s h ->
  (exists n, In (OBegin n) (snd (step iv s (Wake now cs)))) <->
  ~ terminated h /\ on h /\ (forall ds rs, ~ episode h ds rs) /\ exists t, due t0 iv h t /\ t < now.
Proof. exact (begins_iff t0 iv s h now cs). Qed.
Print Assumptions C112_begins.

(** It begins in no other way, and with the first certificate. *)
Theorem C112_first iv s o n : In (OBegin n) (snd (step iv s o)) ->
  exists now cs, o = Wake now cs /\
  match cs with
  | [] => snd (step iv s o) = [OBegin 0; ODone]
  | c :: _ => (short c -> snd (step iv s o) = [OBegin (List.length cs); OAsk c]) /\
              (~ short c -> snd (step iv s o) = [OBegin (List.length cs); OTerminate])
  end.
Proof.
  intros I. destruct (begin_only _ _ _ _ I) as (now & cs & ->). exists now, cs. split; [reflexivity |].
  rewrite (begins_with _ _ _ _ _ I). pose proof (ask_out iv s now cs) as A. destruct cs as [ | c cs].
  - now rewrite A.
  - destruct A as (A & B). split; intros H; [now rewrite A | now rewrite B].
Qed.
Print Assumptions C112_first.

(** The next certificate is asked for when the answer was good; when it was the last one, the answers are stored, each for
    its certificate. *)
Theorem C112_next t0 iv s h now res cs rs : happened t0 iv s h -> ~ terminated h -> episode h cs rs ->
  match nth_error cs (S (List.length rs)) with
  | Some c => (short c -> snd (step iv s (Answer now (Conf true (Some res)))) = [OAsk c]) /\
              (~ short c -> snd (step iv s (Answer now (Conf true (Some res)))) = [OTerminate])
  | None => exists ws, stored cs (rs ++ [Conf true (Some res)]) ws /\
              snd (step iv s (Answer now (Conf true (Some res)))) = ws ++ [ODone]
  end.
Proof. exact (answer_good t0 iv s h now res cs rs). Qed.
Print Assumptions C112_next.

(** Any other answer ends the update without storing anything. *)
Theorem C112_fails t0 iv s h now r cs rs : happened t0 iv s h -> ~ terminated h -> episode h cs rs ->
  match r with
  | Unreadable => snd (step iv s (Answer now r)) = [OTerminate]
  | Conf true (Some _) => True
  | _ => snd (step iv s (Answer now r)) = [OFailed]
  end.
Proof. exact (answer_bad t0 iv s h now r cs rs). Qed.
Print Assumptions C112_fails.

(** Answers that nobody waits for do nothing. *)
Theorem C112_stray t0 iv s h now r : happened t0 iv s h -> (forall cs rs, ~ episode h cs rs) -> snd (step iv s (Answer now r)) = [].
Proof. exact (answer_none t0 iv s h now r). Qed.
Print Assumptions C112_stray.

(** All or nothing: when something is stored, all certificates of the update have been answered and all are stored. *)
Theorem C112_all_or_nothing t0 iv s h o w x : happened t0 iv s h -> In (OWrite w x) (snd (step iv s o)) ->
  exists now r cs rs ws, o = Answer now r /\ episode h cs rs /\ stored cs (rs ++ [r]) ws /\ snd (step iv s o) = ws ++ [ODone].
Proof. exact (write_only t0 iv s h o w x). Qed.
Print Assumptions C112_all_or_nothing.

(** Start, stop and trigger have to wait for the end of an update. *)
Theorem C112_waits t0 iv s h o cs rs : happened t0 iv s h -> ~ terminated h -> episode h cs rs ->
  o = Start \/ o = Stop \/ (exists now, o = Trigger now) -> step iv s o = (s, [OBlocked]).
Proof. exact (blocked t0 iv s h o cs rs). Qed.
Print Assumptions C112_waits.

(** A trigger comes through exactly while the updater is on; otherwise its caller gets an exception. *)
Theorem C112_trigger t0 iv s h now : happened t0 iv s h -> ~ terminated h -> (forall cs rs, ~ episode h cs rs) ->
  (on h -> snd (step iv s (Trigger now)) = []) /\ (~ on h -> snd (step iv s (Trigger now)) = [OLogicError]).
Proof.
  intros H NT NE. apply happened_inv in H.
  assert (L : thr s <> Dead) by (rewrite (v_dead _ _ _ _ H); auto).
  pose proof (v_on _ _ _ _ H L) as A. pose proof (v_on1 _ _ _ _ H L) as B. unfold step.
  destruct (thr s) as [ | | c rest got | ] eqn:T; try contradiction.
  - destruct (running s); cbn; split; auto; intros X; [destruct (X (A eq_refl)) | discriminate (B X)].
  - destruct (running s); cbn; split; auto; intros X; [destruct (X (A eq_refl)) | discriminate (B X)].
  - destruct (v_ep _ _ _ _ H _ _ _ T) as (cs & rs & X). destruct (NE _ _ X).
Qed.
Print Assumptions C112_trigger.

(** Starting it a second time without a stop, or before the thread has ended, terminates the process. *)
Theorem C112_start t0 iv s h : happened t0 iv s h -> ~ terminated h -> (forall cs rs, ~ episode h cs rs) -> on h ->
  snd (step iv s Start) = [OTerminate].
Proof.
  intros H NT NE O. apply happened_inv in H.
  assert (L : thr s <> Dead) by (rewrite (v_dead _ _ _ _ H); auto).
  pose proof (v_on1 _ _ _ _ H L O) as R. unfold step. destruct (thr s) as [ | | c rest got | ] eqn:T; try contradiction; auto.
  - rewrite (v_abs _ _ _ _ H T) in R. discriminate.
  - destruct (v_ep _ _ _ _ H _ _ _ T) as (cs & rs & X). destruct (NE _ _ X).
Qed.
Print Assumptions C112_start.

(** A stopped updater ends with the next wake-up. *)
Theorem C112_stop t0 iv s h now cs s' : happened t0 iv s h -> step iv s Stop = (s', []) -> thr s' = Waiting ->
  snd (step iv s' (Wake now cs)) = [OJoined] /\ snd (step iv (fst (step iv s' (Wake now cs))) Start) = [].
Proof.
  intros _ E T. assert (R : running s' = false).
  { unfold step in E. destruct (thr s) eqn:T0; inversion E; subst; auto. congruence. }
  unfold step. rewrite T, R. cbn. auto.
Qed.
Print Assumptions C112_stop.

(** The trigger is called by the thread that reads messages: behind it no message is read, whatever arrives, until the
    question of the updater has timed out. *)
Theorem C112_held iv c rest got d r os box hd s' :
  (forall now, ~ In (STimeout now) os) -> fst (sys_run iv (System (Ocsp d r (Updating c rest got)) (MSigned :: box) hd) os) = s' ->
  sys s' = Ocsp d r (Updating c rest got) /\ handled s' = hd /\ exists more, inbox s' = MSigned :: box ++ more.
Proof.
  intros N. apply held. clear - N. induction os as [ | o os IH]; [reflexivity |].
  assert (X : no_timeout os = true) by (apply IH; intros now I; apply (N now); now right).
  destruct o; cbn; auto. exfalso. apply (N now). now left.
Qed.
Print Assumptions C112_held.

(** ** Concrete cases *)
Definition ca : cert := Cert SHA256 "n" "k" "1" "http://a".
Definition cb : cert := Cert SHA512 "n" "k" "2" "http://b".
Definition iv0 : intervals := default_intervals.
Fixpoint trace (s : ocsp) (os : list op) : list (list out) :=
  match os with [] => [] | o :: os => let (s', l) := step iv0 s o in l :: trace s' os end.
Fixpoint hist (s : ocsp) (h : history) (os : list op) : ocsp * history :=
  match os with [] => (s, h) | o :: os => let (s', l) := step iv0 s o in hist s' ((o, l) :: h) os end.
Lemma hist_happened t0 os : forall s h, happened t0 iv0 s h -> happened t0 iv0 (fst (hist s h os)) (snd (hist s h os)).
Proof.
  induction os as [ | o os IH]; intros s h H; cbn; auto. destruct (step iv0 s o) as [s' l] eqn:E. apply IH. econstructor; eauto.
Qed.

Example C112_example :
  trace (init 0) [Start; Wake 1 [ca; cb]; Trigger 2; Answer 3 (Conf true (Some "x")); Answer 4 (Conf true (Some "y")); Wake 5 [ca]; Trigger 6; Wake 7 [cb]] =
  [[]; [OBegin 2; OAsk ca]; [OBlocked]; [OAsk cb];
   [OWrite (Hash SHA256 "n" "k" "1") "x"; OWrite (Hash SHA512 "n" "k" "2") "y"; ODone]; []; []; [OBegin 1; OAsk cb]].
Proof. vm_compute. reflexivity. Qed.
(** The hypotheses of the theorems can be met: an update under way with an answer. *)
Example C112_under_way :
  exists s h, happened 0 iv0 s h /\ ~ terminated h /\ on h /\ episode h [ca; cb] [Conf true (Some "x")].
Proof.
  exists (fst (hist (init 0) [] [Start; Wake 1 [ca; cb]; Answer 3 (Conf true (Some "x"))])), (snd (hist (init 0) [] [Start; Wake 1 [ca; cb]; Answer 3 (Conf true (Some "x"))])).
  split; [apply hist_happened; constructor |]. vm_compute snd. repeat split.
  - intros (e & I & T). repeat (destruct I as [<- | I]; [cbn in T; intuition discriminate |]). destruct I.
  - apply on_same; [ | left; discriminate]. apply on_same; [ | left; discriminate]. apply on_start. auto.
  - apply (ep_answer 3 (Conf true (Some "x")) _ _ [ca; cb] []); try (cbn; intuition discriminate).
    eapply ep_begin; [left; reflexivity | cbn; intuition discriminate | cbn; intuition discriminate].
Qed.
Example C112_due_example : due 0 iv0 (snd (hist (init 0) [] [Start; Wake 1 [ca]; Answer 3 (Conf true (Some "x"))])) (3 + 167 * 3600).
Proof. vm_compute snd. apply (due_done 0 iv0 3). cbn. auto. Qed.

(** ** What does not hold *)

(** That a certificate whose status the CSMS has told is stored: one other certificate that is rejected prevents it. *)
Definition C112_each_claim : Prop := forall s h now cs rs r c res k, happened 0 iv0 s h -> episode h cs rs ->
  nth_error cs k = Some c -> nth_error (rs ++ [r]) k = Some (Conf true (Some res)) ->
  (forall d, nth_error cs (S (List.length rs)) <> Some d) ->
  In (OWrite (Hash (c_alg c) (c_name c) (c_key c) (c_serial c)) res) (snd (step iv0 s (Answer now r))).
Theorem C112_each_refuted : ~ C112_each_claim.
Proof.
  intros H. set (os := [Start; Wake 1 [ca; cb]; Answer 3 (Conf true (Some "x"))]).
  specialize (H (fst (hist (init 0) [] os)) (snd (hist (init 0) [] os)) 4 [ca; cb] [Conf true (Some "x")] (Conf false None) ca "x" 0%nat).
  assert (X : In (OWrite (Hash SHA256 "n" "k" "1") "x") [OFailed]).
  { apply H; [apply hist_happened; constructor | | reflexivity | reflexivity | discriminate].
    vm_compute snd. apply (ep_answer 3 (Conf true (Some "x")) _ _ [ca; cb] []); try (cbn; intuition discriminate).
    eapply ep_begin; [left; reflexivity | cbn; intuition discriminate | cbn; intuition discriminate]. }
  revert X. cbn. intuition discriminate.
Qed.
Print Assumptions C112_each_refuted.

(** That an update is attempted as soon as the updater is started, as the comment in start says: after a stop and a start it
    waits for the old deadline. *)
Definition C112_restart_claim : Prop := forall s h s' now cs, happened 0 iv0 s h -> (forall e, In e h -> forall now cs, fst e = Wake now cs -> now < 1000) ->
  step iv0 s Start = (s', []) -> 1000 < now -> exists n, In (OBegin n) (snd (step iv0 s' (Wake now cs))).
Theorem C112_restart_refuted : ~ C112_restart_claim.
Proof.
  intros H. set (os := [Start; Wake 1 []; Stop; Wake 2 []]).
  specialize (H (fst (hist (init 0) [] os)) (snd (hist (init 0) [] os)) (Ocsp (1 + 167 * 3600) true Waiting) 1001 [ca]).
  destruct H as (n & X).
  - apply hist_happened. constructor.
  - vm_compute snd. intros e I now cs E. repeat (destruct I as [<- | I]; [cbn in E; inversion E; lia |]). destruct I.
  - reflexivity.
  - lia.
  - destruct X.
Qed.
Print Assumptions C112_restart_refuted.

(** That an answer that has arrived is used: it is not if a certificate was signed in the meantime. *)
Definition answered : list sop :=
  [SArrive (MAnswer (Conf true (Some "x"))); SArrive MSigned; SArrive (MAnswer (Conf true (Some "y"))); SRead 2; SRead 3; SRead 4; STimeout 30; SRead 31; SRead 32].
Theorem C112_used_refuted :
  let s0 := System (fst (step iv0 (Ocsp 0 true Waiting) (Wake 1 [ca; cb]))) [] [] in
  snd (sys_run iv0 s0 answered) = [OAsk cb; OBlocked; OBlocked; OFailed] /\
  handled (fst (sys_run iv0 s0 answered)) = [MAnswer (Conf true (Some "x")); MSigned; MAnswer (Conf true (Some "y"))].
Proof. vm_compute. split; reflexivity. Qed.
Print Assumptions C112_used_refuted.

(** That a certificate with a long address of its responder does not end the process. *)
Fixpoint long (n : nat) : string := match n with O => "a" | S n => long n ++ long n end.
Theorem C112_long_refuted : exists c, String.length (c_serial c) = 1%nat /\
  snd (step iv0 (Ocsp 0 true Waiting) (Wake 1 [c])) = [OBegin 1; OTerminate].
Proof. exists (Cert SHA256 "n" "k" "1" (long 11)). split; vm_compute; reflexivity. Qed.
Print Assumptions C112_long_refuted.
