(** Model of how an OCPP 1.6 station changes its security profile: lib/ocpp/v16/charge_point_impl.cpp 1891-1937 (the key
    SecurityProfile in set_configuration_key_internal), 2032-2053 (switchSecurityProfile), 296-345 (the callbacks of the
    websocket), 1261-1308 (stop), 1310-1311 (connected_callback), 428-432 (connect_websocket).
    The websocket: websocket_libwebsockets.cpp 812-866 (the end of its thread), 882-933 (safe_close_threads), 947-1003
    (start_connecting), 1010-1032 (close_internal), 1352-1365 (CLIENT_CLOSED), 1553-1610 (on_conn_close, on_conn_fail).

    The websocket is seen from outside: it tries to connect with a profile, at most so often or for ever (-1), is connected,
    or does nothing. How often it tries before it gives up, the address and the other options are left out, as is the
    parsing of the value. *)
From Coq Require Import ZArith List Bool.
Import ListNotations.
Open Scope Z_scope.

(** What the websocket does: nothing; trying with a profile and max_connection_attempts; connected with a profile. *)
Inductive link := Idle | Trying (p attempts : Z) | Up (p : Z).

(** [prof]: the profile of the configuration, which is stored; [callback]: switch_security_profile_callback as the arguments
    it calls switchSecurityProfile with; [timer]: websocket_timer with the profile and the attempts it captured; [closing]:
    the websocket was told to disconnect; [options]: the profile and the attempts the websocket uses when it connects again. *)
Record state := S { prof : Z; callback : option (Z * Z); timer : option (Z * Z); conn : link; closing : bool; options : Z * Z; stopped : bool }.

(** What happens: ChangeConfiguration of SecurityProfile (with the value, whether there is an AuthorizationKey, a CSMS root
    certificate, a client certificate); the websocket has closed as told; it has given up; websocket_timer is over;
    it has connected; the connection is lost; stop; connect_websocket; the process starts again. *)
Inductive event := Request (v : Z) (key ca leaf : bool) | Closed | Failed | Timer | Connected | Lost | Stop | Connect | Restart.

(** 1893-1921: which values are taken. *)
Definition allowed (current v : Z) (key ca leaf : bool) : bool :=
  if v <=? current then false
  else if ((v =? 1) || (v =? 2)) && negb key then false
  else if ((v =? 2) || (v =? 3)) && negb ca then false
  else if (v =? 3) && negb leaf then false
  else if 3 <? v then false
  else true.

(** websocket->disconnect (websocket_base.cpp 84-107): something to close, or nothing. *)
Definition disconnect (s : state) : state :=
  match conn s with Idle => s | _ => S (prof s) (callback s) (timer s) (conn s) true (options s) (stopped s) end.

(** 2032-2053: switchSecurityProfile. *)
Definition switch (s : state) (new attempts : Z) : state :=
  S new (Some (prof s, -1)) (Some (new, attempts)) (conn s) (closing s) (options s) (stopped s).

(** 340-344: the callback for a websocket that stopped connecting (websocket_libwebsockets.cpp 858-862, 1572-1574); once for each thread of a websocket. *)
Definition stopped_connecting (s : state) : state :=
  match callback s with Some (p, a) => switch s p a | None => s end.

(** Another state of the websocket. *)
Definition with_conn (s : state) (l : link) : state := S (prof s) (callback s) (timer s) l false (options s) (stopped s).

(** start_connecting: a thread that is there is ended first, which calls the callback afterwards. *)
Definition start_connecting (s : state) : state :=
  let s' := with_conn s (Trying (fst (options s)) (snd (options s))) in
  match conn s with Idle => s' | _ => stopped_connecting s' end.

(** The events; the answers to requests. *)
Definition step (s : state) (e : event) : state * list bool :=
  match e with
  | Request v key ca leaf =>
    if allowed (prof s) v key ca leaf then
      (disconnect (S (prof s) (Some (v, 1)) (timer s) (conn s) (closing s) (options s) (stopped s)), [true])
    else (s, [false])
  | Closed => if closing s then (stopped_connecting (with_conn s Idle), []) else (s, [])
  | Failed =>
    match conn s with
    | Trying _ a => if a =? -1 then (s, []) else (stopped_connecting (with_conn s Idle), [])
    | _ => (s, [])
    end
  | Timer =>
    match timer s with
    | Some (p, a) => (start_connecting (S (prof s) (callback s) None (conn s) (closing s) (p, a) (stopped s)), [])
    | None => (s, [])
    end
  | Connected =>
    match conn s with
    | Trying p _ => if closing s then (s, []) else (S (prof s) None (timer s) (Up p) false (prof s, -1) (stopped s), [])
    | _ => (s, [])
    end
  | Lost =>
    match conn s with
    | Up _ => if closing s then (stopped_connecting (with_conn s Idle), []) else (with_conn s (Trying (fst (options s)) (snd (options s))), [])
    | _ => (s, [])
    end
  | Stop => if stopped s then (s, []) else (disconnect (S (prof s) (callback s) None (conn s) (closing s) (options s) true), [])
  | Connect => match conn s with Up _ => (s, []) | _ => (start_connecting s, []) end
  | Restart => (S (prof s) None None (Trying (prof s) (-1)) false (prof s, -1) false, [])
  end.

(** A station after its start. *)
Definition start (p : Z) : state := S p None None (Trying p (-1)) false (p, -1) false.
