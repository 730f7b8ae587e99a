(** OCPP 1.6: Reset.req with the thread that waits for the transactions, RemoteStopTransaction.req and UnlockConnector.req
    (lib/ocpp/v16/charge_point_impl.cpp). Model only.

    Simplified: the thread of a reset is a state ([waiting] or [done]); the condition variable is notified only by
    handleStopTransactionResponse (2430-2432), at whose end the model evaluates the predicate; the time-out is an event. A
    spurious wake-up of the condition variable is the event [Wake]. The station is not used after std::terminate. *)
From Coq Require Import ZArith List Bool.
Import ListNotations.
Local Open Scope list_scope.
Local Open Scope Z_scope.

Inductive rtype := Soft | Hard.
(** Reasons given to stop_transaction_callback (lib/ocpp/v16/charge_point_impl.cpp:2291, 2334-2338, 2463). *)
Inductive reason := SoftReset | HardReset | Remote | UnlockCommand.
(** UnlockStatus (include/ocpp/v16/ocpp_enums.hpp). *)
Inductive unlock := Unlocked | UnlockFailed | NotSupported.

(** reset_thread (hpp:148): not joinable, waiting in wait_for, or past it (still joinable). *)
Inductive thread := NoThread | Waiting (t : rtype) | Finished.

(** The thread, and of each connector its active transaction (if any) with the id the CSMS gave it (if it has
    answered yet), and whether its state is Charging. *)
Record state := { th : thread; active : Z -> option (option Z); charging : Z -> bool; dead : bool }.

Inductive out :=
| OReset (accepted : bool) | ORemoteStop (accepted : bool) | OUnlockConf (u : unlock)
| OAsk (t : rtype)                    (* is_reset_allowed_callback *)
| OStopTx (c : Z) (r : reason)        (* stop_transaction_callback *)
| ODoReset (t : rtype)                (* reset_callback *)
| OUnlock (c : Z)                     (* unlock_connector_callback *)
| OCallError                          (* an exception left the handler *)
| OTerminate.                         (* std::terminate: the process ends *)

Record env := {
  n : nat;                            (* number of connectors *)
  asks : bool;                        (* is_reset_allowed_callback is set *)
  resets : bool;                      (* reset_callback is set *)
  unlocks : bool;                     (* unlock_connector_callback is set *)
  stop_if_unsupported : bool          (* StopTransactionIfUnlockNotSupported *)
}.

(** The connectors 1 .. n, in this order. *)
Definition connectors (k : nat) : list Z := map Z.of_nat (seq 1 k).

Definition is_some {A} (o : option A) : bool := match o with Some _ => true | None => false end.

(** The predicate of wait_for, 2320-2329. *)
Definition all_stopped (e : env) (s : state) : bool :=
  forallb (fun c => negb (is_some (active s c) || charging s c)) (connectors (n e)).

(** stop_all_transactions, 1251-1258: each connector with an active transaction, in order. *)
Definition stop_all (e : env) (s : state) (r : reason) : list out :=
  flat_map (fun c => if is_some (active s c) then [OStopTx c r] else []) (connectors (n e)).

Definition set_th (s : state) (t : thread) : state := {| th := t; active := active s; charging := charging s; dead := dead s |}.
Definition set_dead (s : state) : state := {| th := th s; active := active s; charging := charging s; dead := true |}.

(** The thread looks at the predicate (wait_for does at the start, after a notification, a spurious wake-up), 2316-2332. *)
Definition look (e : env) (s : state) : state * list out :=
  match th s with
  | Waiting t => if all_stopped e s then (set_th s Finished, [ODoReset t]) else (s, [])
  | _ => (s, [])
  end.

(** handleResetRequest, 2296-2342. Assigning to a joinable std::thread calls std::terminate. The new thread may look first
    before or after the transactions are asked to stop; they are still active then, so it makes no difference. *)
Definition reset (e : env) (s : state) (t : rtype) (allowed : bool) : state * list out :=
  let ask := if asks e && resets e then [OAsk t] else [] in
  if asks e && resets e && allowed then
    match th s with
    | NoThread =>
        let stops := stop_all e s (match t with Soft => SoftReset | Hard => HardReset end) in
        let '(s', l) := look e (set_th s (Waiting t)) in
        (s', ask ++ OReset true :: stops ++ l)
    | _ => (set_dead s, ask ++ [OReset true; OTerminate])
    end
  else (s, ask ++ [OReset false]).

(** get_connector_from_transaction_id (lib/ocpp/v16/transaction.cpp:230-243): the first connector with it, otherwise -1. *)
Definition connector_of (e : env) (s : state) (tx : Z) : Z :=
  match find (fun c => match active s c with Some (Some x) => x =? tx | _ => false end) (connectors (n e)) with Some c => c | None => -1 end.

(** handleRemoteStopTransactionRequest, 2276-2294. *)
Definition remote_stop (e : env) (s : state) (tx : Z) : list out :=
  let c := connector_of e s tx in
  ORemoteStop (0 <? c) :: (if 0 <? c then [OStopTx c Remote] else []).

(** handleUnlockConnectorRequest, 2438-2461. transaction_active of a connector below 0 or above the number of connectors throws
    std::out_of_range (vector::at, transaction.cpp:191-197); entry 0 is there and always empty. *)
Definition unlock_connector (e : env) (s : state) (c : Z) (answer : unlock) : list out :=
  let inside := (0 <? c) && (c <=? Z.of_nat (n e)) in
  let pre := if inside && unlocks e then [OUnlock c] else [] in
  let u := if inside && unlocks e then answer else NotSupported in
  pre ++ OUnlockConf u ::
  match u with
  | NotSupported =>
      if (c <? 0) || (Z.of_nat (n e) <? c) then [OCallError]
      else if inside && is_some (active s c) && stop_if_unsupported e then [OStopTx c UnlockCommand] else []
  | _ => []
  end.

Inductive op :=
| Reset (t : rtype) (allowed : bool)
| RemoteStop (tx : Z)
| Unlock (c : Z) (answer : unlock)
| Started (c : Z)                     (* a transaction has started, its StartTransaction.req is sent *)
| Confirmed (c tx : Z)                (* StartTransaction.conf with the id tx for the transaction of connector c *)
| Stopped (c : Z)                     (* add_stopped_transaction: the transaction is no longer active *)
| Status (c : Z) (ch : bool)          (* the connector enters or leaves Charging *)
| StopConf                            (* StopTransaction.conf: the condition variable is notified *)
| Wake                                (* spurious *)
| TimeOut                             (* WaitForStopTransactionsOnResetTimeout has passed *)
| Destroy.                            (* ~ChargePointImpl: destroying a joinable std::thread calls std::terminate *)

Definition upd {A} (f : Z -> A) (c : Z) (v : A) : Z -> A := fun d => if d =? c then v else f d.

Definition step (e : env) (s : state) (o : op) : state * list out :=
  if dead s then (s, []) else
  match o with
  | Reset t a => reset e s t a
  | RemoteStop tx => (s, remote_stop e s tx)
  | Unlock c a => (s, unlock_connector e s c a)
  | Started c => ({| th := th s; active := upd (active s) c (Some None); charging := charging s; dead := dead s |}, [])
  | Confirmed c tx => (match active s c with
                       | Some _ => {| th := th s; active := upd (active s) c (Some (Some tx)); charging := charging s; dead := dead s |}
                       | None => s
                       end, [])
  | Stopped c => ({| th := th s; active := upd (active s) c None; charging := charging s; dead := dead s |}, [])
  | Status c ch => ({| th := th s; active := active s; charging := upd (charging s) c ch; dead := dead s |}, [])
  | StopConf | Wake => look e s
  | TimeOut => match th s with Waiting t => (set_th s Finished, [ODoReset t]) | _ => (s, []) end
  | Destroy => match th s with NoThread => (set_dead s, []) | _ => (set_dead s, [OTerminate]) end
  end.

Definition init : state := {| th := NoThread; active := fun _ => None; charging := fun _ => false; dead := false |}.
