(** Specification of registration and triggers, told from the history of what happened to the station.  Nothing here
    refers to the state of the model. *)
From Coq Require Import String List ZArith Bool.
From Verif Require Import B16Model.
Import ListNotations.
Open Scope Z_scope.

(** The station has ever been connected *)
Fixpoint was_connected (h : list op) : bool :=
  match h with
  | [] => false
  | OConnect :: _ => true
  | _ :: r => was_connected r
  end.

(** The answers to BootNotification.req the station has heard, newest first *)
Fixpoint heard (h : list op) : list bconf :=
  match h with
  | [] => []
  | ORecv (GConf true (Some c)) :: r => if was_connected r then c :: heard r else heard r
  | _ :: r => heard r
  end.

Definition accepts (c : bconf) : bool := match bc_status c with RAccepted => true | _ => false end.

(** The station was accepted at some time *)
Definition accepted (h : list op) : bool := existsb accepts (heard h).

(** Where the station stands with its CSMS *)
Inductive standing := Unknown | Waiting | Refused | Member.

Definition stands (h : list op) : standing :=
  if accepted h then Member
  else match heard h with
       | [] => Unknown
       | c :: _ => match bc_status c with RPending => Waiting | _ => Refused end
       end.

(** How a request of the CSMS that is supported is treated *)
Inductive treatment := Ignored | RefusedAnswer | Given.

Definition treats (w : standing) (k : ckind) : treatment :=
  match w, k with
  | Member, _ => Given
  | Waiting, KOther => Given
  | Waiting, _ => RefusedAnswer
  | _, _ => Ignored
  end.

(** The events a treatment shows *)
Definition shows (t : treatment) (connected : bool) (id : Z) (x : option exc) : list ev :=
  match t with
  | Given => EHandle id :: match x with
                           | None => []
                           | Some XFormat => [EError id "FormationViolation"]
                           | Some XOther => [EError id "GenericError"]
                           end
  | RefusedAnswer => [ERefuse id]
  | Ignored => if connected then [EUnanswered id] else []
  end.

(** Seconds after which to ask again *)
Definition wait_of (c : bconf) : Z := if 0 <? bc_interval c then bc_interval c else 60.

(** The station is running: neither stopped, or started since *)
Fixpoint is_running (h : list op) : bool :=
  match h with
  | [] => true
  | OStop _ :: _ => false
  | OStart _ _ :: _ | ORestart _ _ :: _ => true
  | _ :: r => is_running r
  end.

(** An operation is an answer that still counts: heard, and the station was not accepted before *)
Definition counts (o : op) (before : list op) : option bconf :=
  match o with
  | ORecv (GConf true (Some c)) => if was_connected before && negb (accepted before) then Some c else None
  | _ => None
  end.

(** The operation stops a running station *)
Definition halts (o : op) (before : list op) : bool :=
  match o with OStop _ => is_running before | _ => false end.

(** The time set for the next BootNotification.req, if one is set *)
Fixpoint next_boot (h : list op) : option Z :=
  match h with
  | [] => None
  | o :: r =>
      match counts o r with
      | Some c => if accepts c then None else Some (wait_of c)
      | None => match o with
                | OBootTimer _ => None
                | _ => if halts o r then None else next_boot r
                end
      end
  end.

(** HeartbeatInterval, [hb] at first *)
Fixpoint interval_now (hb : Z) (h : list op) : Z :=
  match h with
  | [] => hb
  | o :: r =>
      match counts o r with
      | Some c => if 0 <? bc_interval c then bc_interval c else interval_now hb r
      | None => match o with OHeartbeatInterval z => z | _ => interval_now hb r end
      end
  end.

(** The time between two Heartbeat.req, if they are sent *)
Fixpoint beats (hb : Z) (h : list op) : option Z :=
  match h with
  | [] => None
  | o :: r =>
      match counts o r with
      | Some c => if accepts c then Some (if 0 <? bc_interval c then bc_interval c else interval_now hb r)
                  else beats hb r
      | None => match o with
                | OHeartbeatInterval z => Some z
                | _ => if halts o r then None else beats hb r
                end
      end
  end.

(** Certificates are being checked, if the station does ([does]) *)
Fixpoint checks (does : bool) (h : list op) : bool :=
  match h with
  | [] => false
  | o :: r =>
      match counts o r with
      | Some c => if accepts c then does || checks does r else checks does r
      | None => match o with
                | ODisconnect => false
                | _ => if halts o r then false else checks does r
                end
      end
  end.

(** Messages that have become free to be sent *)
Fixpoint outs (e : list ev) : list msg :=
  match e with
  | [] => []
  | EOut m :: r => m :: outs r
  | _ :: r => outs r
  end.

(** The station is neither stopped nor started again *)
Definition no_stop (h : list op) : Prop :=
  forall o, In o h -> match o with OStop _ | ORestart _ _ => False | _ => True end.

Definition never_started (h : list op) : bool :=
  negb (existsb (fun o => match o with OStart _ _ => true | _ => false end) h).

(** Requests the station wants to send: whether at any time, whether it was asked to, and whether it does not wait *)
Record wish := { w_msg : msg; w_asked : bool; w_now : bool }.

Definition mk (t : mtype) (n : Z) : wish := {| w_msg := {| mty := t; mid := n |}; w_asked := false; w_now := false |}.

Definition wishes (c : cfg) (hb : Z) (o : op) (before : list op) : list wish :=
  match o with
  | OStart _ n => mk MBoot n :: if c_no_security_events c then [] else [mk MSec n]
  | OSend m t => [{| w_msg := m; w_asked := t; w_now := false |}]
  | OSendAsync m t => [{| w_msg := m; w_asked := t; w_now := true |}]
  | OBootTimer n => match next_boot before with Some _ => [mk MBoot n] | None => [] end
  | OHbTimer n => match beats hb before with Some _ => [mk MHeartbeat n] | None => [] end
  | _ => []
  end.

(** Sent whatever the CSMS thinks of the station: BootNotification.req and what was asked for *)
Definition always (w : wish) : bool := w_asked w || match mty (w_msg w) with MBoot => true | _ => false end.

(** Not lost while the station is not accepted *)
Definition patient (queue_all : bool) (w : wish) : bool :=
  negb (w_now w) && match mty (w_msg w) with MStartTx | MStopTx | MMeter | MSec => true | _ => queue_all end.

(** What is on its way to a CSMS that has not accepted the station *)
Fixpoint free (c : cfg) (hb : Z) (h : list op) : list msg :=
  match h with
  | [] => []
  | o :: r => free c hb r ++ map w_msg (filter always (wishes c hb o r))
  end.

(** What was left over by the last run of the program *)
Definition left_over (o : op) (before : list op) : list msg :=
  match o with OStart loaded _ => if never_started before then loaded else [] | _ => [] end.

(** All that must reach a CSMS that has accepted the station *)
Fixpoint due (c : cfg) (hb : Z) (h : list op) : list msg :=
  match h with
  | [] => []
  | o :: r =>
      due c hb r ++ left_over o r ++
      map w_msg (filter (fun w => accepted r || always w || patient (c_queue_all c) w) (wishes c hb o r))
  end.

(** ** Triggers *)

(** There is such a connector, or none was named *)
Definition names_connector (n : Z) (c : option Z) : Prop :=
  match c with None => True | Some c => 0 <= c <= n end.

(** A connector is meant by a request *)
Definition meant (n : Z) (c : option Z) (k : Z) : Prop :=
  match c with None => 0 <= k <= n | Some c => k = c /\ 0 <= c <= n end.
