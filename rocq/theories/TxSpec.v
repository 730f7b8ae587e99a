(** What is said about transactions, resets and availability, in terms of the calls made and what leaves the library. *)
From Coq Require Import ZArith List Bool.
From Verif Require Import TxModel.
From Verif Require CsmModel.
Import ListNotations.
Local Open Scope Z_scope.

(** ** Transaction events *)

(** The TransactionEvent messages of one transaction, oldest first: sequence number and kind. *)
Fixpoint events (id : Z) (l : list out) : list (Z * evkind) :=
  match l with
  | [] => []
  | OTx v :: q => if v_id v =? id then (v_seq v, v_kind v) :: events id q else events id q
  | _ :: q => events id q
  end.

(** n, n+1, ... *)
Fixpoint counting (n : Z) (l : list Z) : Prop :=
  match l with [] => True | x :: q => x = n /\ counting (n + 1) q end.
Fixpoint increasing (l : list Z) : Prop :=
  match l with
  | [] => True
  | x :: q => match q with [] => True | y :: _ => x < y end /\ increasing q
  end.

(** The life of a transaction: Started, then Updated, and at most one Ended, which is the last. *)
Fixpoint after_start (l : list evkind) : Prop :=
  match l with
  | [] => True
  | Started :: _ => False
  | Updated :: q => after_start q
  | Ended :: q => q = []
  end.
Definition life (l : list evkind) : Prop :=
  match l with [] => True | k :: q => k = Started /\ after_start q end.

(** The transaction ids the application starts transactions with; they must be different. *)
Fixpoint started_ids (h : list call) : list Z :=
  match h with
  | [] => []
  | c :: q => match c_op c with OStart _ _ id _ _ _ _ => id :: started_ids q | _ => started_ids q end
  end.
Definition different_ids (h : list call) : Prop := NoDup (started_ids h).
Definition no_failures (h : list call) : Prop := Forall (fun c => c_fail c = []) h.
Definition no_crashes (h : list call) : Prop := Forall (fun c => c_crash c = None) h.
Definition is_restart (o : op) : bool := match o with ORestart => true | _ => false end.
Definition no_restarts (h : list call) : Prop := Forall (fun c => is_restart (c_op c) = false) h.

(** ** Resets *)

(** The reset callbacks among the outputs. *)
Fixpoint resets (l : list out) : list (option Z * rtype) :=
  match l with [] => [] | OReset e t :: q => (e, t) :: resets q | _ :: q => resets q end.

(** Where transactions are running, as seen from the calls: [con] is the number of connectors of each EVSE. *)
Definition known_evse (con : list Z) (e : Z) : Prop := 1 <= e <= Z.of_nat (length con).
Definition known_connector (con : list Z) (e c : Z) : Prop := 1 <= c <= nth (Z.to_nat (e - 1)) con 0.
Definition known_evseb (con : list Z) (e : Z) : bool := (1 <=? e) && (e <=? Z.of_nat (length con)).
Definition known_connectorb (con : list Z) (e c : Z) : bool := (1 <=? c) && (c <=? nth (Z.to_nat (e - 1)) con 0).
Definition update (f : Z -> bool) (e : Z) (b : bool) : Z -> bool := fun x => if x =? e then b else f x.
Definition track (con : list Z) (busy : Z -> bool) (o : op) : Z -> bool :=
  match o with
  | OStart e c _ _ _ _ _ => if known_evseb con e && known_connectorb con e c then update busy e true else busy
  | OFinish e _ _ _ _ => if known_evseb con e then update busy e false else busy
  | _ => busy
  end.
Definition evse_ids (con : list Z) : list Z := map Z.of_nat (seq 1 (length con)).
Definition any_busy (con : list Z) (busy : Z -> bool) : bool := existsb busy (evse_ids con).

(** The intended treatment of resets: what is waited for, and the callbacks made. *)
Record rspec := RS { a_busy : Z -> bool; a_station : bool; a_evse : Z -> bool }.
Definition permitted (e : option Z) (allowed : bool) (allow : option bool) : bool :=
  allowed && match e, allow with Some _, Some b => b | _, _ => true end.
Definition rs_step (con : list Z) (s : rspec) (o : op) : rspec * list (option Z * rtype) :=
  let busy := track con (a_busy s) o in
  match o with
  | OFinish e _ _ _ _ =>
      if known_evseb con e && a_busy s e then
        if a_evse s e then (RS busy (a_station s) (update (a_evse s) e false), [(Some e, OnIdle)])
        else if a_station s && negb (any_busy con busy) then (RS busy false (a_evse s), [(None, OnIdle)])
        else (RS busy (a_station s) (a_evse s), [])
      else (s, [])
  | OResetReq None ty allowed allow =>
      if permitted None allowed allow then
        match ty with
        | Immediate => (s, [(None, Immediate)])
        | OnIdle => if any_busy con busy then (RS busy true (a_evse s), []) else (s, [(None, Immediate)])
        end
      else (s, [])
  | OResetReq (Some e) ty allowed allow =>
      if known_evseb con e && permitted (Some e) allowed allow then
        match ty with
        | Immediate => (s, [(Some e, Immediate)])
        | OnIdle => if busy e then (RS busy (a_station s) (update (a_evse s) e true), []) else (s, [(Some e, Immediate)])
        end
      else (s, [])
  | _ => (RS busy (a_station s) (a_evse s), [])
  end.
Fixpoint rs_run (con : list Z) (s : rspec) (h : list call) : rspec * list (option Z * rtype) :=
  match h with
  | [] => (s, [])
  | c :: q => let '(s1, l1) := rs_step con s (c_op c) in let '(s2, l2) := rs_run con s1 q in (s2, l1 ++ l2)
  end.

(** The requests the code treats as intended: no station reset is scheduled while one of a single EVSE waits nor the
    other way round, and a reset of a single idle EVSE is not requested while another EVSE is busy. *)
Definition plain_request (con : list Z) (s : rspec) (o : op) : bool :=
  match o with
  | OResetReq None OnIdle allowed allow =>
      negb (permitted None allowed allow && any_busy con (a_busy s)) || negb (existsb (a_evse s) (evse_ids con))
  | OResetReq (Some e) OnIdle allowed allow =>
      negb (known_evseb con e && permitted (Some e) allowed allow) ||
      (if a_busy s e then negb (a_station s) else negb (any_busy con (a_busy s)))
  | _ => true
  end.
Fixpoint plain (con : list Z) (s : rspec) (h : list call) : bool :=
  match h with
  | [] => true
  | c :: q => plain_request con s (c_op c) && plain con (fst (rs_step con s (c_op c))) q
  end.

(** Does a transaction on [e] end during [h]? *)
Fixpoint ends (con : list Z) (busy : Z -> bool) (e : Z) (h : list call) : bool :=
  match h with
  | [] => false
  | c :: q =>
      match c_op c with OFinish e1 _ _ _ _ => (e1 =? e) && known_evseb con e && busy e | _ => false end
      || ends con (track con busy (c_op c)) e q
  end.
Definition asks_reset_of (e : Z) (o : op) : bool :=
  match o with OResetReq (Some e1) _ _ _ => e1 =? e | _ => false end.
(** How often the callback asks to reset EVSE [e] after waiting. *)
Fixpoint idle_resets (e : Z) (l : list (option Z * rtype)) : nat :=
  match l with
  | [] => 0
  | (Some e1, OnIdle) :: q => if e1 =? e then S (idle_resets e q) else idle_resets e q
  | _ :: q => idle_resets e q
  end.

(** ** Availability *)

(** The individual status of the component a request is about, and its row in the database. *)
Definition status_of (s : CsmModel.st) (t : option (Z * option Z)) : CsmModel.opstat :=
  match t with
  | None => CsmModel.s_cs s
  | Some (e, None) => CsmModel.s_ev s e
  | Some (e, Some c) => CsmModel.c_op (CsmModel.s_con s e c)
  end.
Definition stored (s : CsmModel.st) (t : option (Z * option Z)) : option CsmModel.opstat :=
  match t with
  | None => CsmModel.s_db s 0 0
  | Some (e, None) => CsmModel.s_db s e 0
  | Some (e, Some c) => CsmModel.s_db s e c
  end.
(** Components that exist. *)
Definition exists_target (con : list Z) (t : option (Z * option Z)) : Prop :=
  match t with
  | None => True
  | Some (e, None) => known_evse con e
  | Some (e, Some c) => known_evse con e /\ known_connector con e c
  end.
(** Is a transaction running that a request for [t] has to wait for? *)
Definition waits_for (con : list Z) (busy : Z -> bool) (t : option (Z * option Z)) : Prop :=
  match t with
  | None => exists e, known_evse con e /\ busy e = true
  | Some (e, _) => busy e = true
  end.
(** The answers to ChangeAvailability among the outputs. *)
Fixpoint answers (l : list out) : list status :=
  match l with [] => [] | OAvResp s :: q => s :: answers q | _ :: q => answers q end.
(** Two requests for the same EVSE (whatever the connector), or both for the whole station. *)
Definition same_slot (a b : option (Z * option Z)) : Prop :=
  match a, b with
  | None, None => True
  | Some (e, _), Some (f, _) => e = f
  | _, _ => False
  end.

(** The tracked transactions of a station. *)
Definition busy_of (w : world) : Z -> bool := fun e => match w_tx w e with Some _ => true | None => false end.
(** What a step adds to the outputs. *)
Definition added (w w' : world) : list out := skipn (length (w_out w)) (w_out w').
(** The stations one can get to. *)
Definition reachable (w : world) : Prop :=
  exists con resume txcb allcb h, Forall (fun n => 0 <= n) con /\ w = run (init con resume txcb allcb) h.

(** What leaves the library apart from the notifications of the component state manager. *)
Definition visible (l : list out) : list out := filter (fun o => match o with OAv _ => false | _ => true end) l.
(** The answer to a reset request. *)
Definition reset_answer (con : list Z) (busy : Z -> bool) (e : option Z) (ty : rtype) (ok : bool) : status :=
  if ok then
    match ty with
    | Immediate => Accepted
    | OnIdle => if any_busy con busy || match e with Some e => busy e | None => false end then Scheduled else Accepted
    end
  else Rejected.
(** Is there a moment during [h] at which no transaction is running? *)
Fixpoint becomes_idle (con : list Z) (busy : Z -> bool) (h : list call) : bool :=
  match h with
  | [] => false
  | c :: q => negb (any_busy con (track con busy (c_op c))) || becomes_idle con (track con busy (c_op c)) q
  end.
Definition is_reset_request (o : op) : bool := match o with OResetReq _ _ _ _ => true | _ => false end.
(** A transaction [t] has to wait for is running after each of the calls. *)
Fixpoint waits_through (con : list Z) (busy : Z -> bool) (t : option (Z * option Z)) (h : list call) : Prop :=
  match h with
  | [] => True
  | c :: q => waits_for con (track con busy (c_op c)) t /\ waits_through con (track con busy (c_op c)) t q
  end.
(** Calls that can replace a request for [t] that waits: another request for a component of the same EVSE (or
    for the station), and a firmware update, which makes EVSEs inoperative. *)
Definition replaces (con : list Z) (t : option (Z * option Z)) (o : op) : Prop :=
  match o with OAvail r => exists_target con (q_evse r) /\ same_slot t (q_evse r) | OFirmware => True | _ => False end.
(** Is connector [c] of EVSE [e] the one of a running transaction? *)
Definition uses (w : world) (e c : Z) : Prop := exists t, w_tx w e = Some t /\ t_conn t = c.
(** The components put out of service while a request for [t] waits: for the station the idle EVSEs, for an EVSE or one of
    its connectors the unused connectors of that EVSE. *)
Definition put_out (w : world) (t u : option (Z * option Z)) : Prop :=
  match t with
  | None => exists e, known_evse (w_con w) e /\ busy_of w e = false /\ u = Some (e, None)
  | Some (e, _) => exists c, known_connector (w_con w) e c /\ ~ uses w e c /\ u = Some (e, Some c)
  end.
(** The transactions running after the calls [h]. *)
Definition busy_after (con : list Z) (busy : Z -> bool) (h : list call) : Z -> bool :=
  fold_left (fun b c => track con b (c_op c)) h busy.
