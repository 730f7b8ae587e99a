(** C129: what a thread that sends a message over the websocket learns, and what
    goes over the wire. *)

From Coq Require Import List Bool Arith Sorted.
From Verif Require Import PmModel PmSpec PmProofs.
Import ListNotations.

(** A send that reports success has put the whole message on the wire, unless
    the message is empty. *)
Theorem C129_success_means_written_partial : forall es s m,
  run init es = Some s -> waiter s m = Returned true -> nth m (messages es) 0 <> 0 ->
  In m (whole (messages es) (wire s)).
Proof.
  intros es s m H W N. pose proof (inv_run _ _ _ inv_init H) as I.
  pose proof (lens_run _ _ _ H) as L. cbn in L.
  destruct (i_sent _ I m (i_ret _ I m W)) as [X|X]; unfold len in X; rewrite L in X; [congruence|].
  unfold whole. apply in_map_iff. exists (m, nth m (messages es) 0). split; [reflexivity|].
  apply filter_In. split; [exact X|]. apply Nat.eqb_refl.
Qed.
Print Assumptions C129_success_means_written_partial.

(** Whole messages go over the wire in the order in which they were sent, each at
    most once. *)
Theorem C129_messages_are_written_in_order_and_once : forall es s,
  run init es = Some s -> StronglySorted lt (whole (messages es) (wire s)).
Proof.
  intros es s H. pose proof (i_sorted _ (inv_run _ _ _ inv_init H)) as S.
  rewrite (lens_run _ _ _ H) in S. exact S.
Qed.
Print Assumptions C129_messages_are_written_in_order_and_once.

(** If nobody sends while another thread waits, no thread sleeps on a message
    that was sent without being about to be woken. *)
Theorem C129_nobody_sleeps_on_a_sent_message_partial : forall es s m,
  run init es = Some s -> one_at_a_time init es ->
  waiter s m = Asleep -> sent s m = true -> writer s = Marked m \/ 0 < to_notify s.
Proof.
  intros es s m H O W S. exact (proj2 (proj2 (inv2_run _ _ _ inv_init inv2_init O H)) m W S).
Qed.
Print Assumptions C129_nobody_sleeps_on_a_sent_message_partial.

(** What is reported is whether the message had been marked as sent when the
    thread came back. *)
Theorem C129_the_result_is_what_was_known : forall es s e s' m ok,
  run init es = Some s -> step s e = Some s' ->
  (forall b, waiter s m <> Returned b) -> waiter s' m = Returned ok -> ok = sent s m.
Proof. intros es s e s' m ok _. apply result_known. Qed.
Print Assumptions C129_the_result_is_what_was_known.

(** As long as the queue was not cleared, no message is lost: each is in the
    queue or was written as a whole, unless it is empty. *)
Theorem C129_no_message_is_lost : forall es s m,
  run init es = Some s -> ~ In Clear es -> m < length (messages es) ->
  nth m (messages es) 0 <> 0 ->
  In m (queue s) \/ In m (whole (messages es) (wire s)).
Proof.
  intros es s m H C L N. pose proof (inv_run _ _ _ inv_init H) as I.
  assert (J0 : inv3 init) by (intros k Hk; cbn in Hk; inversion Hk).
  pose proof (inv3_run _ _ _ inv_init J0 C H) as J.
  pose proof (lens_run _ _ _ H) as E. cbn in E. unfold inv3, len in J. rewrite E in J.
  destruct (J m L) as [X|[X|X]]; [auto|congruence|]. right.
  unfold whole. apply in_map_iff. exists (m, nth m (messages es) 0). split; [reflexivity|].
  apply filter_In. split; [exact X|]. apply Nat.eqb_refl.
Qed.
Print Assumptions C129_no_message_is_lost.

(** And if writing works, the client thread alone gets them all written. *)
Theorem C129_the_client_thread_writes_all : forall es s,
  run init es = Some s -> ~ In Clear es -> writer s = Idle ->
  (forall m, waiter s m <> Decided) ->
  exists fs s', run s fs = Some s' /\ Forall by_client fs /\
    forall m, m < length (messages es) -> nth m (messages es) 0 <> 0 ->
              In m (whole (messages es) (wire s')).
Proof.
  intros es s H C Wr D.
  assert (L : locked s = false).
  { unfold locked. apply not_true_iff_false. intros X. apply existsb_exists in X.
    destruct X as [m [_ X]]. destruct (waiter s m) eqn:E; try discriminate. exact (D m E). }
  destruct (drains _ s eq_refl Wr L) as [fs [s' [R [F Q]]]].
  exists fs, s'. split; [exact R|]. split; [exact F|]. intros m Hm Nm.
  destruct (client_no_clear _ F) as [C2 M2].
  assert (M : messages (es ++ fs) = messages es).
  { rewrite <- (app_nil_r (messages es)), <- M2. clear. induction es as [|e es IH]; [reflexivity|].
    rewrite <- app_comm_cons, (messages_cons e (es ++ fs)), IH, (messages_cons e es), app_assoc. reflexivity. }
  assert (R2 : run init (es ++ fs) = Some s') by (rewrite run_app, H; exact R).
  destruct (C129_no_message_is_lost (es ++ fs) s' m R2) as [X|X]; rewrite ?M; try assumption.
  - intros X. apply in_app_or in X. destruct X as [X|X]; contradiction.
  - rewrite Q in X. contradiction.
  - rewrite M in X. exact X.
Qed.
Print Assumptions C129_the_client_thread_writes_all.

(** ** Cases *)

(** Two messages, the second after the first came back; the first write fails. *)
Definition one_by_one : list event :=
  [Send 5; Notify None; Test 0; Sleep 0; Write Failed; Write Full; Mark; Pop; Notify (Some 0); Test 0;
   Send 7; Notify None; Test 1; Write (Part 2); Write Full; Mark; Sleep 1].

Example C129_one_by_one :
  match run init one_by_one with
  | Some s => waiter s 0 = Returned true /\ waiter s 1 = Asleep /\ sent s 1 = true /\
              writer s = Marked 1 /\ messages one_by_one = [5; 7] /\
              wire s = [(0, 5); (1, 2); (1, 7)] /\ whole (messages one_by_one) (wire s) = [0; 1]
  | None => False
  end.
Proof. vm_compute. repeat split. Qed.
(** Two messages waiting, one thread asleep and the other back without success. *)
Example C129_two_in_the_queue :
  match run init [Send 5; Send 7; Test 0; Sleep 0; Timeout 0; Test 1; Sleep 1] with
  | Some s => queue s = [0; 1] /\ writer s = Idle /\ waiter s 0 = Returned false /\
              waiter s 1 = Asleep /\
              match run s [Write Full; Mark; Pop; Write Full; Mark; Pop] with
              | Some s' => whole [5; 7] (wire s') = [0; 1] /\ queue s' = []
              | None => False
              end
  | None => False
  end.
Proof. vm_compute. repeat split. Qed.
Lemma next : forall s e es s',
  (forall n, e = Send n -> forall m, ~ waiting (waiter s m)) ->
  step s e = Some s' -> one_at_a_time s' es -> one_at_a_time s (e :: es).
Proof. intros s e es s' C E R. cbn [one_at_a_time]. rewrite E. auto. Qed.
Ltac next_step :=
  match goal with |- one_at_a_time ?s (?e :: ?es) =>
    let r := eval vm_compute in (step s e) in
    match r with Some ?s' =>
      apply (next s e es s'); [| vm_compute; reflexivity |]
    end
  end.
Example C129_one_by_one_is_one_at_a_time : one_at_a_time init one_by_one.
Proof.
  unfold one_by_one.
  next_step; [intros ? _ m [X|[X|[X|X]]]; discriminate|].
  do 9 (next_step; [intros; discriminate|]).
  next_step; [intros ? _ [|m] [X|[X|[X|X]]]; discriminate|].
  do 6 (next_step; [intros; discriminate|]).
  exact Logic.I.
Qed.

(** ** What does not hold *)

(** An empty message (a ping with an empty payload) is reported as sent though
    nothing was written. *)
Theorem C129_success_means_written_refuted :
  exists es s, run init es = Some s /\ waiter s 0 = Returned true /\ wire s = [].
Proof.
  exists [Send 0; Notify None; Mark; Pop; Notify None; Test 0].
  remember (run init [Send 0; Notify None; Mark; Pop; Notify None; Test 0]) as o eqn:E.
  vm_compute in E. subst o. eexists. split; [reflexivity|]. split; reflexivity.
Qed.
Print Assumptions C129_success_means_written_refuted.

(** A send that reports failure leaves its message in the queue: it is written
    later, and whoever sends it again has sent it twice. *)
Theorem C129_failure_means_not_written_refuted :
  exists es s, run init es = Some s /\ waiter s 0 = Returned false /\ sent s 0 = true /\
               In 0 (whole (messages es) (wire s)).
Proof.
  exists [Send 3; Notify None; Test 0; Sleep 0; Timeout 0; Write Full; Mark].
  remember (run init [Send 3; Notify None; Test 0; Sleep 0; Timeout 0; Write Full; Mark]) as o eqn:E.
  vm_compute in E. subst o. eexists. split; [reflexivity|]. split; [reflexivity|].
  split; [reflexivity|]. left. reflexivity.
Qed.
Print Assumptions C129_failure_means_not_written_refuted.

(** With two threads waiting the one notification may wake the wrong one: the
    other sleeps on, its message sent and nobody about to wake it. *)
Theorem C129_nobody_sleeps_on_a_sent_message_refuted :
  exists es s, run init es = Some s /\ waiter s 0 = Asleep /\ sent s 0 = true /\
               writer s = Idle /\ to_notify s = 0.
Proof.
  exists [Send 3; Send 4; Notify None; Notify None; Test 0; Sleep 0; Test 1; Sleep 1;
          Write Full; Mark; Pop; Notify (Some 1); Test 1; Sleep 1].
  remember (run init [Send 3; Send 4; Notify None; Notify None; Test 0; Sleep 0; Test 1; Sleep 1;
          Write Full; Mark; Pop; Notify (Some 1); Test 1; Sleep 1]) as o eqn:E.
  vm_compute in E. subst o. eexists. split; [reflexivity|]. repeat split; reflexivity.
Qed.
Print Assumptions C129_nobody_sleeps_on_a_sent_message_refuted.
