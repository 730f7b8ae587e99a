(** Model of the thread that calls the deferred callbacks of a websocket, with
    the queue it waits on, the threads that push to it and the destructor that
    ends it, one step at a time.

    - include/ocpp/common/safe_queue.hpp (pop, push, wait_on_queue_element_or_predicate,
      notify_waiting_thread)
    - lib/ocpp/common/websocket/websocket_libwebsockets.cpp 365-377 (end of the
      destructor), 1701-1736 (push_deferred_callback,
      thread_deferred_callback_queue)

    Any number of threads push.  What a critical section does is one step; the
    notification that follows it is another, and so are, in a wait, the test of
    the predicate and falling asleep, between which the mutex is held.  A
    condition variable wakes the thread if it is asleep and does nothing
    otherwise; it may also wake it unasked.  Simplified: a callback is a value;
    callbacks that push further ones are among the threads that push; the
    empty callback, which is refused (1702), is left out. *)

From Coq Require Import List Bool ZArith.
Import ListNotations.

Definition callback := Z.

(** Where the thread is in its loop (1710-1736). *)
Inductive pc :=
| Testing               (* about to lock the mutex and test the predicate *)
| Decided               (* found it false; holds the mutex, about to sleep *)
| Asleep                (* in cv.wait *)
| Woken                 (* notified; about to lock and test again *)
| Returned              (* the wait is over *)
| Popping
| Calling (c : callback)
| Ended                 (* left the loop *)
| Undefined.            (* pop of an empty queue: undefined behaviour *)

(** The destructor (370-376). *)
Inductive dtor := Alive | Stored | Joining | Gone.

Record state := {
  queue : list callback;
  thread : pc;
  stop : bool;              (* stop_deferred_handler *)
  destructor : dtor;
  to_notify : nat;          (* threads between their push and its notification *)
  pushed : list callback;   (* all that were ever pushed, in order *)
  called : list callback }. (* all that were called, in order *)

Definition init : state :=
  {| queue := []; thread := Testing; stop := false; destructor := Alive; to_notify := 0;
     pushed := []; called := [] |}.

Definition set_thread (s : state) (p : pc) : state :=
  {| queue := queue s; thread := p; stop := stop s; destructor := destructor s;
     to_notify := to_notify s; pushed := pushed s; called := called s |}.

(** The mutex is held over more than one step only here. *)
Definition locked (s : state) : bool := match thread s with Decided => true | _ => false end.

(** safe_queue.hpp 111-113: notify_one *)
Definition notify_one (s : state) : state :=
  match thread s with Asleep => set_thread s Woken | _ => s end.

(** safe_queue.hpp 84-95 and 1714-1715: the predicate of the wait *)
Definition predicate (s : state) : bool :=
  negb (match queue s with [] => true | _ => false end) || stop s.

Definition test (s : state) : state :=
  if predicate s then set_thread s Returned else set_thread s Decided.

Inductive event :=
| Push (c : callback)   (* a thread's critical section in push *)
| Notify                (* and its notification *)
| Store                 (* stop_deferred_handler.store(true) *)
| StopNotify            (* deferred_callback_queue.notify_waiting_thread() *)
| Join                  (* join returns *)
| Spurious              (* a wake-up unasked *)
| Thread.               (* the next step of the thread *)

(** 1710-1736 *)
Definition thread_step (s : state) : option state :=
  match thread s with
  | Testing | Woken => Some (test s)
  | Decided => Some (set_thread s Asleep)
  | Asleep => None
  | Returned =>
      if stop s && (match queue s with [] => true | _ => false end)
      then Some (set_thread s Ended) else Some (set_thread s Popping)
  | Popping =>
      match queue s with
      | [] => Some (set_thread s Undefined)
      | c :: q =>
          Some {| queue := q; thread := Calling c; stop := stop s; destructor := destructor s;
                  to_notify := to_notify s; pushed := pushed s; called := called s |}
      end
  | Calling c =>
      Some {| queue := queue s; thread := Testing; stop := stop s; destructor := destructor s;
              to_notify := to_notify s; pushed := pushed s; called := called s ++ [c] |}
  | Ended | Undefined => None
  end.

(** [None]: the event cannot happen now. *)
Definition step (s : state) (e : event) : option state :=
  match e with
  | Push c =>
      if locked s then None
      else Some {| queue := queue s ++ [c]; thread := thread s; stop := stop s;
                   destructor := destructor s; to_notify := S (to_notify s);
                   pushed := pushed s ++ [c]; called := called s |}
  | Notify =>
      match to_notify s with
      | 0 => None
      | S n => Some (notify_one {| queue := queue s; thread := thread s; stop := stop s;
                       destructor := destructor s; to_notify := n;
                       pushed := pushed s; called := called s |})
      end
  | Store =>
      match destructor s with
      | Alive => Some {| queue := queue s; thread := thread s; stop := true; destructor := Stored;
                         to_notify := to_notify s; pushed := pushed s; called := called s |}
      | _ => None
      end
  | StopNotify =>
      match destructor s with
      | Stored => Some (notify_one {| queue := queue s; thread := thread s; stop := stop s;
                          destructor := Joining; to_notify := to_notify s;
                          pushed := pushed s; called := called s |})
      | _ => None
      end
  | Join =>
      match destructor s, thread s with
      | Joining, Ended => Some {| queue := queue s; thread := Ended; stop := stop s;
                                  destructor := Gone; to_notify := to_notify s;
                                  pushed := pushed s; called := called s |}
      | _, _ => None
      end
  | Spurious => match thread s with Asleep => Some (set_thread s Woken) | _ => None end
  | Thread => thread_step s
  end.

Fixpoint run (s : state) (es : list event) : option state :=
  match es with
  | [] => Some s
  | e :: es' => match step s e with Some s' => run s' es' | None => None end
  end.
