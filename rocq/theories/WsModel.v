(** Reconnecting and supervising the websocket connection.

    Model of
    - lib/ocpp/common/websocket/websocket_base.cpp 139-159   get_reconnect_interval
    - lib/ocpp/common/websocket/websocket_base.cpp 169-217   set_websocket_ping_interval and its timer callback
    - lib/ocpp/common/websocket/websocket_base.cpp 223-227   on_pong_timeout
    - lib/ocpp/common/websocket/websocket_libwebsockets.cpp 811-840, 1380-1382, 1524-1533, 1552-1566, 1590-1611
      (the decision of the client loop, the pong callback, on_conn_connected, on_conn_close, on_conn_fail)

    The libwebsockets library, the threads and the message exchange are left out. The random number drawn by
    std::uniform_int_distribution is a parameter of the event. [int] arithmetic that leaves the range of a 32-bit int is
    undefined behaviour in C++ and is the distinct output [Overflow]. *)
From Coq Require Import ZArith List Bool.
Import ListNotations.
Local Open Scope Z_scope.

Definition int_min : Z := -2147483648.
Definition int_max : Z := 2147483647.
Definition fits (z : Z) : bool := (int_min <=? z) && (z <=? int_max).

(** websocket_base.hpp 22-37: the members of WebsocketConnectionOptions that are used here. *)
Record options := { o_range : Z;          (* retry_backoff_random_range_s *)
                    o_repeat : Z;         (* retry_backoff_repeat_times *)
                    o_wait : Z;           (* retry_backoff_wait_minimum_s *)
                    o_max_attempts : Z    (* max_connection_attempts *) }.

(** websocket_base.hpp 45-63: the members of WebsocketBase. ping_interval_s and pong_timeout_s are members of
    connection_options that are changed while running. *)
Record ws := { w_connected : bool;        (* m_is_connected *)
               w_attempts : Z;            (* connection_attempts *)
               w_backoff : Z;             (* reconnect_backoff_ms *)
               w_timer : bool;            (* ping_timer is running *)
               w_cleared : bool;          (* ping_cleared *)
               w_ping_el : Z;             (* ping_elapsed_s *)
               w_pong_el : Z;             (* pong_elapsed_s *)
               w_interval : Z;            (* connection_options.ping_interval_s *)
               w_pong_timeout : Z         (* connection_options.pong_timeout_s *) }.

(** websocket_base.cpp 10-21: the constructor. *)
Definition init (interval pong_timeout : Z) : ws :=
  {| w_connected := false; w_attempts := 1; w_backoff := 0; w_timer := false; w_cleared := true;
     w_ping_el := 0; w_pong_el := 0; w_interval := interval; w_pong_timeout := pong_timeout |}.

Definition set_attempts a (w : ws) := {| w_connected := w_connected w; w_attempts := a; w_backoff := w_backoff w; w_timer := w_timer w; w_cleared := w_cleared w; w_ping_el := w_ping_el w; w_pong_el := w_pong_el w; w_interval := w_interval w; w_pong_timeout := w_pong_timeout w |}.
Definition set_backoff b (w : ws) := {| w_connected := w_connected w; w_attempts := w_attempts w; w_backoff := b; w_timer := w_timer w; w_cleared := w_cleared w; w_ping_el := w_ping_el w; w_pong_el := w_pong_el w; w_interval := w_interval w; w_pong_timeout := w_pong_timeout w |}.
Definition set_link c t (w : ws) := {| w_connected := c; w_attempts := w_attempts w; w_backoff := w_backoff w; w_timer := t; w_cleared := w_cleared w; w_ping_el := w_ping_el w; w_pong_el := w_pong_el w; w_interval := w_interval w; w_pong_timeout := w_pong_timeout w |}.
Definition set_ping c pi po (w : ws) := {| w_connected := w_connected w; w_attempts := w_attempts w; w_backoff := w_backoff w; w_timer := w_timer w; w_cleared := c; w_ping_el := pi; w_pong_el := po; w_interval := w_interval w; w_pong_timeout := w_pong_timeout w |}.
Definition set_periods t i p (w : ws) := {| w_connected := w_connected w; w_attempts := w_attempts w; w_backoff := w_backoff w; w_timer := t; w_cleared := w_cleared w; w_ping_el := w_ping_el w; w_pong_el := w_pong_el w; w_interval := i; w_pong_timeout := p |}.

Inductive event :=
| Start                      (* start_connecting *)
| Established                (* the connection is up: on_conn_connected *)
| Failed (random : Z)        (* an attempt failed or the connection was lost: on_conn_fail and the client loop *)
| Closed                     (* closed on our own request: on_conn_close *)
| SetPing (interval pong_timeout : Z)
| Tick                       (* one second of the ping timer *)
| Pong.                      (* a pong was received *)

Inductive output :=
| Nothing
| ReconnectIn (ms : Z)       (* wait, then try again *)
| Exhausted                  (* no further attempt *)
| Ping                       (* a ping was sent *)
| PongTimeout                (* the connection is closed because no pong came *)
| Overflow.                  (* undefined behaviour: signed overflow *)

(** websocket_base.cpp 139-159: get_reconnect_interval. [None] is signed overflow. *)
Definition get_reconnect_interval (o : options) (random : Z) (w : ws) : option (ws * Z) :=
  if negb (fits (o_repeat o + 1)) then None
  else if (o_repeat o + 1) <? w_attempts w then Some (w, w_backoff w)
  else
    let b := if w_attempts w =? 1
             then (o_wait o + random) * 1000
             else w_backoff w * 2 + random * 1000 in
    let ok := if w_attempts w =? 1
              then fits (o_wait o + random) && fits b
              else fits (w_backoff w * 2) && fits (random * 1000) && fits b in
    if ok then Some (set_backoff b w, b) else None.

(** websocket_libwebsockets.cpp 811-840: what the client loop does after a connection that did not work out or broke. *)
Definition loop_decision (o : options) (random : Z) (w : ws) : ws * output :=
  if (o_max_attempts o =? -1) || (w_attempts w <=? o_max_attempts o) then
    match get_reconnect_interval o random w with
    | None => (w, Overflow)
    | Some (w', d) =>
        if fits (w_attempts w' + 1) then (set_attempts (w_attempts w' + 1) w', ReconnectIn d) else (w', Overflow)
    end
  else (w, Exhausted).

(** websocket_base.cpp 169-217: set_websocket_ping_interval. The timer is stopped and started again if the interval is
    positive; the elapsed times and the pending ping are left alone. *)
Definition set_websocket_ping_interval (i p : Z) (w : ws) : ws := set_periods (0 <? i) i p w.

(** websocket_base.cpp 181-212: the timer callback. The pings go through poll_message, which drops them when the
    connection is down (websocket_libwebsockets.cpp 1125-1129). *)
Definition tick (w : ws) : ws * output :=
  if negb (w_timer w) then (w, Nothing)
  else if negb (w_cleared w) then
    let po := w_pong_el w + 1 in
    if w_pong_timeout w <? po
    then (set_link false false (set_ping true 0 0 w), PongTimeout)
    else (set_ping (w_cleared w) (w_ping_el w) po w, Nothing)
  else
    let pi := w_ping_el w + 1 in
    if w_interval w <? pi
    then (set_ping false 0 0 w, if w_connected w then Ping else Nothing)
    else (set_ping (w_cleared w) pi (w_pong_el w) w, Nothing).

Definition step (o : options) (e : event) (w : ws) : ws * output :=
  match e with
  | Start => (set_attempts 1 w, Nothing)                                       (* websocket_libwebsockets.cpp 977 *)
  | Established =>                                                              (* 1529-1533 *)
      (set_websocket_ping_interval (w_interval w) (w_pong_timeout w) (set_link true (w_timer w) (set_attempts 1 w)), Nothing)
  | Failed r => loop_decision o r (set_link false false w)                     (* 1604-1610 *)
  | Closed => (set_link false false w, Nothing)                                 (* 1557-1562 *)
  | SetPing i p => (set_websocket_ping_interval i p w, Nothing)
  | Tick => tick w
  | Pong => (set_ping true (w_ping_el w) (w_pong_el w) w, Nothing)              (* 1380-1382 *)
  end.

Fixpoint run (o : options) (es : list event) (w : ws) : ws * list output :=
  match es with
  | [] => (w, [])
  | e :: es' => let (w1, x) := step o e w in let (w2, xs) := run o es' w1 in (w2, x :: xs)
  end.
