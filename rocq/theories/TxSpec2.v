(** What the TransactionEvent messages say: specification, independent of [TxModel]'s functions. *)
From Coq Require Import ZArith List Bool.
From Verif Require Import TxModel TxSpec.
Import ListNotations.
Local Open Scope Z_scope.

(** A message without its sequence number (those are the subject of C39). *)
Record content := Content {
  m_kind : evkind; m_id : Z; m_trig : trig; m_cs : Z; m_reason : option Z; m_remote : option Z; m_evse : option (Z * Z);
  m_tok : option Z }.
Definition content_of (v : txev) : content :=
  Content (v_kind v) (v_id v) (v_trig v) (v_cs v) (v_reason v) (v_remote v) (v_evse v) (v_tok v).
(** The messages among the outputs: [true] those for the CSMS, [false] those for the callback. *)
Fixpoint told (l : list out) : list (bool * content) :=
  match l with
  | [] => []
  | OTx v :: q => (true, content_of v) :: told q
  | OTxCallback v :: q => (false, content_of v) :: told q
  | _ :: q => told q
  end.

(** What is known of a running transaction: id, connector, charging state, whether an id token was sent, stop reason and
    remote start id. *)
Record known_tx := KTx { k_id : Z; k_conn : Z; k_cs : Z; k_tok : bool; k_reason : option Z; k_remote : option Z }.
Definition view (w : world) : Z -> option known_tx :=
  fun e => match w_tx w e with
           | None => None
           | Some t => Some (KTx (t_id t) (t_conn t) (t_cs t) (t_tok t) (t_reason t) (t_remote t))
           end.
(** The remote starts that wait for their transaction: by EVSE, 0 for any, the id token and the remote start id. *)
Definition pending (w : world) : Z -> option (Z * Z) := fun k => map_get k (w_remote w).

Record talk := Talk { t_view : Z -> option known_tx; t_pend : Z -> option (Z * Z) }.
Definition put {A} (f : Z -> A) (k : Z) (v : A) : Z -> A := fun x => if x =? k then v else f x.

(** Is the remote start waiting under [k] for this token? *)
Definition waits_under (p : Z -> option (Z * Z)) (k tok : Z) : option Z :=
  match p k with Some (t, rid) => if t =? tok then Some rid else None | None => None end.
(** A message is sent: a remote start for any EVSE is looked at first, then one for the EVSE of the message. The message
    then says so; the callback gets the message as it was. *)
Definition deliver (cb : bool) (p : Z -> option (Z * Z)) (m : content) : (Z -> option (Z * Z)) * list (bool * content) :=
  let as_remote rid := Content (m_kind m) (m_id m) RemoteStart (m_cs m) (m_reason m) (Some rid) (m_evse m) (m_tok m) in
  let cbs := if cb then [(false, m)] else [] in
  match m_tok m with
  | None => (p, (true, m) :: cbs)
  | Some tok =>
      match waits_under p 0 tok, m_evse m with
      | Some rid, _ => (put p 0 None, (true, as_remote rid) :: cbs)
      | None, Some (e, _) =>
          match waits_under p e tok with
          | Some rid => (put p e None, (true, as_remote rid) :: cbs)
          | None => (p, (true, m) :: cbs)
          end
      | None, None => (p, (true, m) :: cbs)
      end
  end.
(** An Updated message for EVSE [e], if it has a transaction. *)
Definition update_msg (cb : bool) (e : Z) (tr : trig) (tok : option Z) (s : talk) : talk * list (bool * content) :=
  match t_view s e with
  | None => (s, [])
  | Some t =>
      let '(p, l) := deliver cb (t_pend s) (Content Updated (k_id t) tr (k_cs t) (k_reason t) (k_remote t) None tok) in
      (Talk (t_view s) p, l)
  end.
Fixpoint update_all (cb : bool) (tr : trig) (l : list Z) (s : talk) : talk * list (bool * content) :=
  match l with
  | [] => (s, [])
  | e :: q => let '(s1, a) := update_msg cb e tr None s in let '(s2, b) := update_all cb tr q s1 in (s2, a ++ b)
  end.
(** A call that returns normally. *)
Definition say (con : list Z) (cb : bool) (s : talk) (o : op) : talk * list (bool * content) :=
  match o with
  | OStart e c id tr tok rid cs =>
      let '(p, l) := deliver cb (t_pend s) (Content Started id tr cs None rid (Some (e, c)) tok) in
      (Talk (put (t_view s) e (Some (KTx id c cs (match tok with Some _ => true | None => false end) None rid))) p, l)
  | OFinish e reason tr tok cs =>
      match t_view s e with
      | None => (s, [])
      | Some t =>
          let '(p, l) := deliver cb (t_pend s) (Content Ended (k_id t) tr cs (Some reason) (k_remote t) None
                                                 (match tr with StopAuthorized => tok | _ => None end)) in
          (Talk (put (t_view s) e None) p, l)
      end
  | OAuthorized e tok =>
      match t_view s e with
      | Some t =>
          if k_tok t then (s, [])
          else update_msg cb e Authorized (Some tok)
                 (Talk (put (t_view s) e (Some (KTx (k_id t) (k_conn t) (k_cs t) true (k_reason t) (k_remote t)))) (t_pend s))
      | None => (s, [])
      end
  | OCharging e cs tr =>
      match t_view s e with
      | Some t =>
          if k_cs t =? cs then (s, [])
          else update_msg cb e tr None
                 (Talk (put (t_view s) e (Some (KTx (k_id t) (k_conn t) cs (k_tok t) (k_reason t) (k_remote t)))) (t_pend s))
      | None => (s, [])
      end
  | OMeter e clock => update_msg cb e (if clock then MeterClock else MeterPeriodic) None s
  | OTrigger (Some e) => update_msg cb e Trigger None s
  | OTrigger None => update_all cb Trigger (evse_ids con) s
  | ORemoteId e tok rid => (Talk (t_view s) (put (t_pend s) e (Some (tok, rid))), [])
  | _ => (s, [])
  end.
Fixpoint say_all (con : list Z) (cb : bool) (s : talk) (h : list call) : talk * list (bool * content) :=
  match h with
  | [] => (s, [])
  | k :: q => let '(s1, a) := say con cb s (c_op k) in let '(s2, b) := say_all con cb s1 q in (s2, a ++ b)
  end.
(** All calls return normally. *)
Fixpoint returning (w : world) (h : list call) : Prop :=
  match h with [] => True | k :: q => w_prog (step w k) = Running /\ returning (step w k) q end.
(** What is running and waiting on the station. *)
Definition talk_of (w : world) : talk := Talk (view w) (pending w).
Definition same_talk (a b : talk) : Prop := (forall e, t_view a e = t_view b e) /\ (forall k, t_pend a k = t_pend b k).
