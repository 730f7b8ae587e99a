(** C128: deferred callbacks of a websocket run once each, in order, and are
    neither lost nor overtaken by the end of their thread. *)

From Coq Require Import List Bool ZArith.
From Verif Require Import SqModel SqSpec SqProofs.
Import ListNotations.

(** At any time those handed over are those called, the one running and those
    waiting, in this order: each is called at most once and none overtakes. *)
Theorem C128_callbacks_are_called_once_and_in_order : forall es s,
  run init es = Some s -> handed es = called s ++ running s ++ queue s.
Proof. exact in_order. Qed.
Print Assumptions C128_callbacks_are_called_once_and_in_order.

(** The thread never takes from an empty queue. *)
Theorem C128_nothing_is_taken_from_an_empty_queue : forall es s,
  run init es = Some s -> thread s <> Undefined.
Proof. intros es s H. exact (i_ok _ (inv_run _ _ _ inv_init H)). Qed.
Print Assumptions C128_nothing_is_taken_from_an_empty_queue.

(** The thread does not sleep through a callback: once those that pushed have
    notified, it only sleeps with nothing to do ... *)
Theorem C128_no_callback_is_slept_through : forall es s,
  run init es = Some s -> thread s = Asleep -> to_notify s = 0 -> queue s = [].
Proof. intros es s H. exact (i_sleep _ (inv_run _ _ _ inv_init H)). Qed.
Print Assumptions C128_no_callback_is_slept_through.

(** ... and if it has not ended, its own steps bring it to call all of them. *)
Theorem C128_all_callbacks_get_called : forall es s,
  run init es = Some s -> to_notify s = 0 -> thread s <> Ended ->
  exists n s', run s (repeat Thread n) = Some s' /\ called s' = handed es.
Proof.
  intros es s H Hn He.
  destruct (drains s (inv_run _ _ _ inv_init H) Hn He) as [n [s' [R C]]].
  exists n, s'. split; [exact R|]. rewrite C, (pushed_run _ _ _ H). reflexivity.
Qed.
Print Assumptions C128_all_callbacks_get_called.

(** The thread ends only after it was told to and only when all callbacks
    handed over until then were called. *)
Theorem C128_the_thread_ends_with_nothing_left : forall es e s s',
  run init es = Some s -> step s e = Some s' -> thread s <> Ended -> thread s' = Ended ->
  In Store es /\ called s' = handed (es ++ [e]).
Proof.
  intros es e s s' H E N T.
  destruct (ends_empty s e s' (inv_run _ _ _ inv_init H) E N T) as [Q S].
  assert (H' : run init (es ++ [e]) = Some s').
  { rewrite run_app, H. cbn. rewrite E. reflexivity. }
  split.
  - assert (X : forall fs t t', run t fs = Some t' -> stop t = false -> stop t' = true -> In Store fs).
    { clear. induction fs as [|f fs IH]; intros t t' R A B; cbn in R.
      - injection R as <-. congruence.
      - destruct (step t f) as [u|] eqn:Eu; [|discriminate].
        destruct f; try (left; reflexivity); right; apply (IH u t' R); auto;
          destruct t as [q p st d n ps cl]; cbn in Eu, A; subst st.
        + unfold locked in Eu. destruct p; cbn in Eu; try discriminate; injection Eu as <-; reflexivity.
        + destruct n; [discriminate|]. injection Eu as <-. unfold notify_one; destruct p; reflexivity.
        + destruct d; try discriminate; injection Eu as <-. unfold notify_one; destruct p; reflexivity.
        + destruct d; try discriminate; destruct p; try discriminate; injection Eu as <-; reflexivity.
        + destruct p; try discriminate; injection Eu as <-; reflexivity.
        + unfold thread_step in Eu. cbn in Eu. destruct p; try discriminate;
            unfold test, predicate in Eu; cbn in Eu; case_step Eu; injection Eu as <-; reflexivity. }
    pose proof (X _ _ _ H' eq_refl S) as Y. apply in_app_or in Y. destruct Y as [Y|[Y|[]]]; [exact Y|].
    exfalso. subst e. cbn in E. destruct (destructor s); try discriminate.
    injection E as <-. cbn in T. congruence.
  - rewrite (in_order _ _ H'). unfold running. rewrite T, Q. cbn. rewrite app_nil_r. reflexivity.
Qed.
Print Assumptions C128_the_thread_ends_with_nothing_left.

(** If the destructor's notification does not fall between the thread's test and
    its falling asleep, the destructor comes back, with all callbacks called. *)
Theorem C128_the_destructor_comes_back_partial : forall es s,
  run init es = Some s -> careful init es -> destructor s = Joining -> thread s <> Ended ->
  exists n s', run s (repeat Thread n ++ [Join]) = Some s' /\ destructor s' = Gone /\
               called s' = handed es.
Proof.
  intros es s H C D T.
  pose proof (inv_run _ _ _ inv_init H) as I.
  assert (S : stop s = true) by (apply (i_stop _ I); congruence).
  assert (J0 : inv2 init) by (intros [|]; discriminate).
  pose proof (inv2_run _ _ _ inv_init J0 C H) as J. unfold inv2 in J.
  destruct (run_to_end s I) as [n [s' [R [Te [De Ca]]]]].
  - intros X. specialize (J (or_introl X) S). congruence.
  - intros X. specialize (J (or_intror X) S). congruence.
  - exact S.
  - exact T.
  - exists n. rewrite run_app, R. cbn [run step]. rewrite De, D, Te.
    eexists. split; [reflexivity|]. cbn. split; [reflexivity|].
    rewrite Ca, (pushed_run _ _ _ H). reflexivity.
Qed.
Print Assumptions C128_the_destructor_comes_back_partial.

(** The flag is stored and the notification sent without the mutex: between the
    test and the sleep both are missed, and the destructor waits for ever. *)
Theorem C128_the_destructor_always_comes_back_refuted :
  exists es s,
    run init es = Some s /\ destructor s = Joining /\ thread s = Asleep /\ stop s = true /\ stuck s.
Proof.
  exists [Push 7%Z; Thread; Notify; Thread; Thread; Thread; Thread; Store; StopNotify; Thread].
  exists {| queue := []; thread := Asleep; stop := true; destructor := Joining; to_notify := 0;
            pushed := [7%Z]; called := [7%Z] |}.
  split; [vm_compute; reflexivity|]. split; [reflexivity|]. split; [reflexivity|].
  split; [reflexivity|].
  intros e N P. destruct e as [c| | | | | |]; cbn; try reflexivity; [elim (P c eq_refl) | congruence].
Qed.
Print Assumptions C128_the_destructor_always_comes_back_refuted.

(** ** Cases *)

Definition a_day : list event :=
  [Thread; Thread; Push 1%Z; Push 2%Z; Notify; Thread; Thread; Thread; Notify; Push 3%Z; Thread;
   Store; Thread; StopNotify; Notify].
Definition evening : option state := run init a_day.

Example C128_a_day_meets_the_hypotheses :
  match evening with
  | Some s => to_notify s = 0 /\ thread s <> Ended /\ destructor s = Joining /\
              called s = [1%Z] /\ queue s = [2%Z; 3%Z] /\ handed a_day = [1%Z; 2%Z; 3%Z]
  | None => False
  end.
Proof. vm_compute. split; [reflexivity|]. split; [discriminate|]. repeat split. Qed.
Example C128_a_day_is_careful : careful init a_day.
Proof. vm_compute. repeat split; intros; discriminate. Qed.
Example C128_a_day_ends :
  match run init (a_day ++ repeat Thread 9 ++ [Join]) with
  | Some s => destructor s = Gone /\ called s = [1%Z; 2%Z; 3%Z]
  | None => False
  end.
Proof. vm_compute. split; reflexivity. Qed.
(** The thread asleep with nothing to do. *)
Example C128_asleep :
  match run init [Thread; Thread] with
  | Some s => thread s = Asleep /\ to_notify s = 0
  | None => False
  end.
Proof. vm_compute. split; reflexivity. Qed.
(** A callback that comes after the thread ended is kept and never called. *)
Example C128_too_late :
  match run init [Store; Thread; Thread; Push 5%Z; Notify; StopNotify; Join] with
  | Some s => queue s = [5%Z] /\ called s = []
  | None => False
  end.
Proof. vm_compute. split; reflexivity. Qed.
