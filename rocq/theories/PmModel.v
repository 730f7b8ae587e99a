(** Model of how messages are handed to the websocket's client thread and how
    the threads that send them learn what became of them, one step at a time.

    - lib/ocpp/common/websocket/websocket_libwebsockets.cpp 258-274
      (WebsocketMessage), 879 (clear_all_queues), 1063-1112 (send_internal),
      1127-1164 (poll_message), 1167-1180 (send), 1628-1698 (on_conn_writable)
    - include/ocpp/common/safe_queue.hpp (push, pop, clear, wait_on_custom_event,
      notify_waiting_thread)

    Any number of threads send, one message each (a thread that sends again is
    another one).  Messages are numbered in the order of their push and have
    only a length; what lws_write makes of one is part of the event.  Critical
    sections are one step; the notification after them is another and wakes one
    of the threads that are asleep, whichever; in a wait the test and falling
    asleep are two steps with the mutex held between.  Simplified: a thread may
    test before its own push has notified, which only adds histories; the
    connection stays up except that the queue may be cleared at any time. *)

From Coq Require Import List Bool Arith.
Import ListNotations.

(** Where the thread of a message is in poll_message. *)
Inductive pc :=
| Absent                (* not called yet *)
| Testing | Decided | Asleep | Woken
| Returned (ok : bool). (* send returned this *)

(** Where the client thread is in on_conn_writable. *)
Inductive client := Idle | Marked (m : nat).

Record state := {
  lens : list nat;             (* the lengths of the messages pushed so far *)
  queue : list nat;
  bytes : nat -> nat;          (* sent_bytes *)
  sent : nat -> bool;          (* message_sent *)
  waiter : nat -> pc;
  writer : client;
  to_notify : nat;             (* notifications still to be made *)
  wire : list (nat * nat) }.   (* what lws_write took: message, bytes *)

Definition init : state :=
  {| lens := []; queue := []; bytes := fun _ => 0; sent := fun _ => false;
     waiter := fun _ => Absent; writer := Idle; to_notify := 0; wire := [] |}.

Definition upd {A} (f : nat -> A) (m : nat) (v : A) : nat -> A :=
  fun n => if Nat.eqb n m then v else f n.

Definition len (s : state) (m : nat) : nat := nth m (lens s) 0.

Definition set_waiter (s : state) (m : nat) (p : pc) : state :=
  {| lens := lens s; queue := queue s; bytes := bytes s; sent := sent s;
     waiter := upd (waiter s) m p; writer := writer s; to_notify := to_notify s; wire := wire s |}.

Definition is_decided (p : pc) : bool := match p with Decided => true | _ => false end.
Definition is_asleep (p : pc) : bool := match p with Asleep => true | _ => false end.

(** Does a thread hold the mutex, or sleep on the condition variable? *)
Definition locked (s : state) : bool :=
  existsb (fun m => is_decided (waiter s m)) (seq 0 (length (lens s))).
Definition someone_asleep (s : state) : bool :=
  existsb (fun m => is_asleep (waiter s m)) (seq 0 (length (lens s))).

(** What lws_write returns: all bytes, fewer, or an error (1087-1108). *)
Inductive written := Full | Part (k : nat) | Failed.

Inductive event :=
| Send (n : nat)               (* push of a new message of this length (1150) *)
| Test (m : nat)               (* the wait's test (1155), first or after waking *)
| Sleep (m : nat)
| Timeout (m : nat)            (* wait_for gives up; the result is read (1158, 1179) *)
| Notify (w : option nat)      (* one notification, waking this thread *)
| Write (r : written)          (* client thread: 1676-1696 *)
| Mark                         (* client thread: message_sent = true (1666) *)
| Pop                          (* and pop (1667) *)
| Clear.                       (* clear_all_queues *)

(** [None]: the event cannot happen now. *)
Definition step (s : state) (e : event) : option state :=
  match e with
  | Send n =>
      if locked s then None
      else Some {| lens := lens s ++ [n]; queue := queue s ++ [length (lens s)];
                   bytes := bytes s; sent := sent s;
                   waiter := upd (waiter s) (length (lens s)) Testing;
                   writer := writer s; to_notify := S (to_notify s); wire := wire s |}
  | Test m =>
      match waiter s m with
      | Testing | Woken =>
          if locked s then None
          else Some (set_waiter s m (if sent s m then Returned true else Decided))
      | _ => None
      end
  | Sleep m =>
      match waiter s m with Decided => Some (set_waiter s m Asleep) | _ => None end
  | Timeout m =>
      match waiter s m with
      | Asleep | Woken => if locked s then None else Some (set_waiter s m (Returned (sent s m)))
      | _ => None
      end
  | Notify w =>
      match to_notify s with
      | 0 => None
      | S n =>
          let s' := {| lens := lens s; queue := queue s; bytes := bytes s; sent := sent s;
                       waiter := waiter s; writer := writer s; to_notify := n; wire := wire s |} in
          match w with
          | Some m => match waiter s m with Asleep => Some (set_waiter s' m Woken) | _ => None end
          | None => if someone_asleep s then None else Some s'
          end
      end
  | Write r =>
      match writer s, queue s with
      | Idle, m :: _ =>
          if len s m <=? bytes s m then None
          else
            match r with
            | Full => Some {| lens := lens s; queue := queue s; bytes := upd (bytes s) m (len s m);
                              sent := sent s; waiter := waiter s; writer := Idle;
                              to_notify := to_notify s; wire := wire s ++ [(m, len s m)] |}
            | Part k =>
                if k <? len s m
                then Some {| lens := lens s; queue := queue s; bytes := upd (bytes s) m 0;
                             sent := sent s; waiter := waiter s; writer := Idle;
                             to_notify := to_notify s; wire := wire s ++ [(m, k)] |}
                else None
            | Failed => Some {| lens := lens s; queue := queue s; bytes := upd (bytes s) m 0;
                                sent := sent s; waiter := waiter s; writer := Idle;
                                to_notify := to_notify s; wire := wire s |}
            end
      | _, _ => None
      end
  | Mark =>
      match writer s, queue s with
      | Idle, m :: _ =>
          if len s m <=? bytes s m
          then Some {| lens := lens s; queue := queue s; bytes := bytes s;
                       sent := upd (sent s) m true; waiter := waiter s; writer := Marked m;
                       to_notify := to_notify s; wire := wire s |}
          else None
      | _, _ => None
      end
  | Pop =>
      match writer s with
      | Marked _ =>
          if locked s then None
          else Some {| lens := lens s; queue := tl (queue s); bytes := bytes s; sent := sent s;
                       waiter := waiter s; writer := Idle; to_notify := S (to_notify s);
                       wire := wire s |}
      | Idle => None
      end
  | Clear =>
      match writer s with
      | Marked _ => None   (* cleared by the client thread or while it is stopped *)
      | Idle =>
          if locked s then None
          else Some {| lens := lens s; queue := []; bytes := bytes s; sent := sent s;
                       waiter := waiter s; writer := Idle; to_notify := S (to_notify s);
                       wire := wire s |}
      end
  end.

Fixpoint run (s : state) (es : list event) : option state :=
  match es with
  | [] => Some s
  | e :: es' => match step s e with Some s' => run s' es' | None => None end
  end.
