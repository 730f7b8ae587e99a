(** * Receiving messages over the websocket

    Model of the LWS_CALLBACK_CLIENT_RECEIVE case of WebsocketLibwebsockets::process_callback,
    on_conn_message, clear_all_queues and thread_websocket_message_recv_loop
    (lib/ocpp/common/websocket/websocket_libwebsockets.cpp) with the SafeQueue between them
    (include/ocpp/common/safe_queue.hpp). The client thread and the receiving thread interleave
    at their accesses of the queue. Simplified: recv_buffered_message is only touched by the client
    thread (safe_close_threads clears it from another one); the websocket is initialised; waiting
    for elements is left out, being bounded by one second; message_callback is recorded. *)
From Coq Require Import List Arith.
Import ListNotations.

Definition bytes := list nat.

(** Where the receiving thread is: before recv_message_queue.empty() or between it, having
    found an element, and pop() (websocket_libwebsockets.cpp 583-587). *)
Inductive reader := Looking | Found.

(** recv_buffered_message, recv_message_queue and the calls of message_callback. *)
Record state := { buffer : bytes; rqueue : list bytes; at_ : reader; delivered : list bytes }.

(** The start (all members are empty). *)
Definition init : state := {| buffer := []; rqueue := []; at_ := Looking; delivered := [] |}.

Inductive event :=
| Chunk (data : bytes) (remaining : nat)   (* LWS_CALLBACK_CLIENT_RECEIVE, lws_remaining_packet_payload *)
| Clear                                    (* clear_all_queues *)
| Look                                     (* recv_message_queue.empty() *)
| Take.                                    (* pop() and message_callback *)

Inductive outcome := Next (s : state) | Disabled | Undefined.

(** One step: the receive case (websocket_libwebsockets.cpp 1389-1397) with on_conn_message
    (1618-1626); clear_all_queues (878-882); the loop of the receiving thread (579-593) with
    SafeQueue::pop, which is undefined on an empty queue (safe_queue.hpp 30-43). *)
Definition step (s : state) (e : event) : outcome :=
  match e with
  | Chunk d r =>
      let b := buffer s ++ d in
      if r <=? 0
      then Next {| buffer := []; rqueue := rqueue s ++ [b]; at_ := at_ s; delivered := delivered s |}
      else Next {| buffer := b; rqueue := rqueue s; at_ := at_ s; delivered := delivered s |}
  | Clear => Next {| buffer := []; rqueue := []; at_ := at_ s; delivered := delivered s |}
  | Look =>
      match at_ s with
      | Looking =>
          match rqueue s with
          | [] => Next s
          | _ => Next {| buffer := buffer s; rqueue := rqueue s; at_ := Found; delivered := delivered s |}
          end
      | Found => Disabled
      end
  | Take =>
      match at_ s with
      | Found =>
          match rqueue s with
          | [] => Undefined
          | m :: q => Next {| buffer := buffer s; rqueue := q; at_ := Looking; delivered := delivered s ++ [m] |}
          end
      | Looking => Disabled
      end
  end.

(** An interleaving of the two threads. *)
Fixpoint run (s : state) (es : list event) : outcome :=
  match es with
  | [] => Next s
  | e :: es' => match step s e with Next s' => run s' es' | o => o end
  end.
