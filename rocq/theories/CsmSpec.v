(** Specification of the availability and connector status bookkeeping, in terms of the calls made, the callbacks
    received and the public getters. *)
From Coq Require Import List ZArith Bool.
From Verif Require Import CsmModel.
Import ListNotations.
Open Scope Z_scope.

(** ** Calls received by the surroundings *)

(** The values the three availability callbacks were called with, per component. *)
Definition cs_calls (o : list out) : list opstat :=
  flat_map (fun x => match x with OCs v => [v] | _ => [] end) o.
Definition evse_calls (e : Z) (o : list out) : list opstat :=
  flat_map (fun x => match x with OEvse e' v => if e' =? e then [v] else [] | _ => [] end) o.
Definition conn_calls (e c : Z) (o : list out) : list opstat :=
  flat_map (fun x => match x with OConn e' c' v => if (e' =? e) && (c' =? c) then [v] else [] | _ => [] end) o.
(** The StatusNotifications handed to the callback for one connector, with the result. *)
Definition notes (e c : Z) (o : list out) : list (cstat * bool * bool) :=
  flat_map (fun x => match x with ONote e' c' v t d => if (e' =? e) && (c' =? c) then [(v, t, d)] else [] | _ => [] end) o.

(** ** Components *)

Definition has_evse (s : st) (e : Z) : Prop := 1 <= e <= s_nev s.
Definition has_conn (s : st) (e c : Z) : Prop := has_evse s e /\ 1 <= c <= s_ncon s e.

(** ** Effective availability *)

(** An individual status: that of the public getters. *)
Definition evse_on (s : st) (e : Z) : Prop := s_cs s = Operative /\ s_ev s e = Operative.
Definition conn_on (s : st) (e c : Z) : Prop := evse_on s e /\ c_op (s_con s e c) = Operative.

(** [v] says whether [P]. *)
Definition says (v : opstat) (P : Prop) : Prop := v = Operative <-> P.

(** The calls a callback must receive when a component goes from (was [P]) to (is [Q]): none if that is the same or if no
    callback is registered, otherwise exactly one with the new value. *)
Definition announced (registered : bool) (P Q : Prop) (calls : list opstat) : Prop :=
  if registered then
    ((P <-> Q) -> calls = []) /\ (~ (P <-> Q) -> exists v, calls = [v] /\ says v Q)
  else calls = [].

(** ** Histories *)

(** A history: calls with how they ended and what was emitted. *)
Definition event := (op * list out * res)%type.
Fixpoint run (s : st) (ops : list op) : st * list event :=
  match ops with
  | [] => (s, [])
  | o :: q => let '(s1, out1, r1) := step s o in let '(s2, h) := run s1 q in (s2, (o, out1, r1) :: h)
  end.

(** The component written by a call that is to be persisted, if the row was written. (0,0): station, (e,0): EVSE. *)
Definition persisted_by (x : event) : option (Z * Z * opstat) :=
  match x with
  | (SetCs v true true, _, Ok) => Some (0, 0, v)
  | (SetEvse e v true _ _, _, Ok) => Some (e, 0, v)
  | (SetEvse e v true true _, _, DbError) => Some (e, 0, v)
  | (SetConn e c v true true, _, Ok) => Some (e, c, v)
  | _ => None
  end.
(** The value last persisted for a component, Operative if there is none. *)
Definition last_persisted (e c : Z) (h : list event) : opstat :=
  fold_left (fun a x => match persisted_by x with
                        | Some (e', c', v) => if (e' =? e) && (c' =? c) then v else a
                        | None => a end) h Operative.

(** The individual status a call sets. *)
Definition individual_after (e c : Z) (old persisted : opstat) (x : event) : opstat :=
  match x with
  | (SetCs v _ _, _, Ok) => if (e =? 0) && (c =? 0) then v else old
  | (SetEvse e' v _ _ _, _, Ok) | (SetEvse e' v _ _ _, _, DbError) => if (e =? e') && (c =? 0) then v else old
  | (SetConn e' c' v _ _, _, Ok) => if (e =? e') && (c =? c') then v else old
  | (RestoreConn e' c', _, Ok) => if (e =? e') && (c =? c') && (0 <? c) then persisted else old
  | (Restart _, _, Ok) => persisted
  | _ => old
  end.

(** ** Connector status *)

(** The status of a connector: Faulted over Unavailable over Occupied over Reserved over Available. *)
Definition has_status (c : conn) (v : cstat) : Prop :=
  match v with
  | Faulted => c_faulted c = true
  | Unavailable => c_faulted c = false /\ c_unavail c = true
  | Occupied => c_faulted c = false /\ c_unavail c = false /\ c_occupied c = true
  | Reserved => c_faulted c = false /\ c_unavail c = false /\ c_occupied c = false /\ c_reserved c = true
  | Available => c_faulted c = false /\ c_unavail c = false /\ c_occupied c = false /\ c_reserved c = false
  end.

(** What the CSMS believes: the status of the last delivered StatusNotification, the default before the first one. *)
Definition csms_view (e c : Z) (o : list out) (default : cstat) : cstat :=
  fold_left (fun a n => match n with (v, _, true) => v | _ => a end) (notes e c o) default.

(** Every notification was delivered. *)
Definition all_delivered (o : list out) : Prop :=
  forall e c v t d, In (ONote e c v t d) o -> d = true.
Definition outs_of (h : list event) : list out := flat_map (fun x => snd (fst x)) h.
(** No call ended with the database exception. *)
Definition no_db_error (h : list event) : Prop := Forall (fun x => snd x <> DbError) h.
Definition is_restart (o : op) : bool := match o with Restart _ => true | _ => false end.

(** The flags of a connector as the calls since the last restart left them. *)
Definition flags_after (e c : Z) (f : bool * bool * bool * bool) (x : event) : bool * bool * bool * bool :=
  let '(ft, rs, oc, un) := f in
  let here e' c' := (e' =? e) && (c' =? c) in
  match x with
  | (SetFaulted e' c' b _, _, Ok) => if here e' c' then (b, rs, oc, un) else f
  | (SetReserved e' c' b _, _, Ok) => if here e' c' then (ft, b, oc, un) else f
  | (SetOccupied e' c' b _, _, Ok) => if here e' c' then (ft, rs, b, un) else f
  | (SetUnavailable e' c' b _, _, Ok) => if here e' c' then (ft, rs, oc, b) else f
  | (Restart _, _, Ok) => (false, false, false, false)
  | _ => f
  end.

(** Which calls ask for a StatusNotification of a connector: (only if the status differs from the last reported one,
    requested by the CSMS, result of sending). A plug-in or plug-out of a reserved connector does not. *)
Definition due (reserved : bool) (e c : Z) (o : op) : option (bool * bool * bool) :=
  let here e' c' := (e' =? e) && (c' =? c) in
  match o with
  | SetOccupied e' c' _ d => if here e' c' && negb reserved then Some (true, false, d) else None
  | SetReserved e' c' _ d | SetFaulted e' c' _ d | SetUnavailable e' c' _ d =>
      if here e' c' then Some (true, false, d) else None
  | SendAll d => Some (false, false, d e c)
  | SendChanged d => Some (true, false, d e c)
  | SendOne e' c' d => if here e' c' then Some (false, true, d) else None
  | _ => None
  end.

(** The notifications that must result from a call, given the status after the call and the last reported one. *)
Definition due_notes (w : option (bool * bool * bool)) (reported now : cstat) (n : list (cstat * bool * bool)) : Prop :=
  match w with
  | None => n = []
  | Some (only_changed, trig, d) =>
      (only_changed = true /\ reported = now -> n = []) /\
      (~ (only_changed = true /\ reported = now) -> n = [(now, trig, d)])
  end.

(** Reported and actual status may differ only in whether a reserved connector is said to be occupied or reserved. *)
Definition reserved_exception (k : conn) (reported : cstat) : Prop :=
  c_reserved k = true /\ c_faulted k = false /\ c_unavail k = false /\ (reported = Occupied \/ reported = Reserved).
