(** What is expected of the transactions of an OCPP 1.6 station, in terms of what can be observed: the calls of the application, the
    answers of the CSMS and the messages. *)
From Coq Require Import ZArith NArith List Bool.
From Verif Require Import T16Model.
Import ListNotations.
Local Open Scope Z_scope.

(** ** An observer *)
(** It knows a message by its first id. [cur]: the StartTransaction of the transaction of a connector. [ostop], [ometer]: the
    StartTransaction of the transaction that a StopTransaction or MeterValues is about. [ans]: the transaction ids that the CSMS gave. *)
Record obs := Obs { cur : Z -> option N; ostop : list (N * N); ometer : list (N * N); ans : list (N * Z) }.
Definition nothing : obs := Obs (fun _ => None) [] [] [].
Definition see1 (o : op) (x : out) (b : obs) : obs :=
  match o, x with
  | Started c _ _ _ _ _ _, OPush (P _ (BStart _ _ _ _ _) i _) => Obs (fun d => if d =? c then Some i else cur b d) (ostop b) (ometer b) (ans b)
  | Stopped c _ _ _ _ _, OPush (P _ (BStop _ _ _ _ _) i _) =>
      match cur b c with
      | Some m => Obs (fun d => if d =? c then None else cur b d) ((i, m) :: ostop b) (ometer b) (ans b)
      | None => b
      end
  | Meter c _ _ _, OPush (P _ (BMeter _ _ _) i _) =>
      match (if 0 <? c then cur b c else None) with
      | Some m => Obs (cur b) (ostop b) ((i, m) :: ometer b) (ans b)
      | None => b
      end
  | Deliver tid _ _ _, OSend (P _ (BStart _ _ _ _ _) i _) => Obs (cur b) (ostop b) (ometer b) ((i, tid) :: ans b)
  | _, _ => b
  end.
Definition see (o : op) (l : list out) (b : obs) : obs := fold_left (fun b x => see1 o x b) l b.
(** A history with what was seen. *)
Fixpoint events (h : list op) (s : st) : list (op * list out) :=
  match h with [] => [] | o :: r => (o, snd (step o s)) :: events r (fst (step o s)) end.
Definition watch (l : list (op * list out)) (b : obs) : obs := fold_left (fun b e => see (fst e) (snd e) b) l b.
(** The station is not restarted, and the application starts a transaction on a connector only if there is none. *)
Definition fine1 (o : op) (b : obs) : Prop :=
  match o with Started c _ _ _ _ _ _ => 0 < c /\ cur b c = None | Boot _ _ => False | _ => True end.
Fixpoint fine (l : list (op * list out)) (b : obs) : Prop :=
  match l with [] => True | (o, x) :: r => fine1 o b /\ fine r (see o x b) end.
(** No StartTransaction.req is sent again. *)
Definition no_start_retry (l : list (op * list out)) : Prop :=
  forall x m c tag w t r i g, In (Retry, x) l -> ~ In (OSend (P m (BStart c tag w t r) i g)) x.

(** ** Messages and calls *)
Definition pushed (l : list out) : list body := flat_map (fun x => match x with OPush p => [p_body p] | _ => [] end) l.
Definition switched (l : list out) : list (Z * bool) := flat_map (fun x => match x with OEnable c => [(c, true)] | ODisable c => [(c, false)] | _ => [] end) l.
Definition answered (l : list out) : list avail_status := flat_map (fun x => match x with OAvail a => [a] | _ => [] end) l.

(** ** Restart *)
(** The message that closes a transaction whose end was not seen: the stored end, or the last meter value. *)
Definition closing (w : row) : body :=
  let e := match w_end w with Some e => e | None => w_last w end in
  BStop (w_tid w) (Z.max (-2147483648) (Z.min 2147483647 (s_wh e))) (s_time e) PowerLoss None.
(** A StopTransaction.req for the transaction was stored. *)
Definition stop_stored (s : st) (w : row) : Prop := exists p m t y g, In p (q s) /\ p_orig p = BStop (w_tid w) m t y g.
(** The transaction ids that came into being in a history: those made up by the station and those given by the CSMS. *)
Definition new_ids (e : op * list out) : list Z :=
  match fst e with
  | Started _ _ _ _ _ _ iid => [iid]
  | Deliver tid _ _ _ => if existsb (fun x => match x with OSend (P _ (BStart _ _ _ _ _) _ _) => true | _ => false end) (snd e) then [tid] else []
  | _ => []
  end.
Definition sessions (e : op * list out) : list N := match fst e with Started _ sess _ _ _ _ _ => [sess] | _ => [] end.

(** ** Availability *)
Definition busy (s : st) (prep : Z -> bool) (c : Z) : Prop := (exists t, act s c = Some t /\ t_active t = true) \/ prep c = true.
(** The connectors that a request is about. *)
Definition target (s : st) (c i : Z) : Prop := 0 <= c <= n s /\ (i = c \/ c = 0 /\ 0 <= i <= n s).
(** What was last requested for a connector, and answered by Accepted or Scheduled. *)
Definition wanted1 (c : Z) (e : op * list out) (w : bool) : bool :=
  match fst e with
  | Avail d up _ => if existsb (fun x => match x with OAvail AvAccepted | OAvail AvScheduled => true | _ => false end) (snd e)
                    then if (d =? c) || (d =? 0) then up else w else w
  | _ => w
  end.
Definition wanted (c : Z) (l : list (op * list out)) : bool := fold_left (fun w e => wanted1 c e w) l true.

(** The last reading of the meter of the transaction of a connector that was periodically taken, or the one at its start. *)
Definition reading1 (e : op * list out) (g : Z -> stamp) : Z -> stamp :=
  match e with
  | (Started c _ _ wh _ time _, _) => fun d => if d =? c then Stamp time (Z.max (-2147483648) (Z.min 2147483647 wh)) else g d
  | (Meter c true _ (Some l), OPush _ :: _) => fun d => if d =? c then l else g d
  | _ => g
  end.
Definition reading (l : list (op * list out)) : Z -> stamp := fold_left (fun g e => reading1 e g) l (fun _ => Stamp 0 0).

(** No firmware is updated, and a change is requested for a connector only if it is busy or no change is scheduled for it. *)
Definition orderly1 (o : op) (s : st) : Prop :=
  match o with
  | Firmware _ _ => False
  | Avail d _ prep => forall i, target s d i -> busy s prep i /\ i <> 0 \/ avq s i = None
  | _ => True
  end.
Fixpoint orderly (h : list op) (s : st) : Prop := match h with [] => True | o :: r => orderly1 o s /\ orderly r (fst (step o s)) end.

(** ** Remote control *)
(** A transaction can be started on the connector. *)
Definition startable (b : obs) (status : Z -> conn_status) (other : option (Z -> bool)) (c : Z) : Prop :=
  cur b c = None /\ (status c = CsAvailable \/ status c = CsPreparing \/ status c = CsOther
                     \/ status c = CsReserved /\ match other with Some f => f c = false | None => True end).
(** The connectors that a request may be about. *)
Definition meant (n : Z) (c : option Z) (i : Z) : Prop := 1 <= i <= n /\ match c with Some j => i = j | None => True end.

(** ** Messages *)
(** The same data, but for the transaction id. *)
Definition same_but_id (a b : body) : Prop :=
  match a, b with
  | BStart c t m x r, BStart c' t' m' x' r' => (c, t, m, x, r) = (c', t', m', x', r')
  | BStop _ m x y g, BStop _ m' x' y' g' => (m, x, y, g) = (m', x', y', g')
  | BMeter c _ v, BMeter c' _ v' => (c, v) = (c', v')
  | _, _ => False
  end.

(** ** Firmware *)
(** New firmware is there and not yet known to have failed. *)
Definition updating1 (o : op) (w : bool) : bool :=
  match o with
  | Firmware false FwDownloaded | Firmware true FwSignatureVerified => true
  | Firmware _ FwDownloadFailed | Firmware _ FwInstallationFailed | Firmware true FwVerificationFailed | Firmware true FwInvalidSignature => false
  | _ => w
  end.
Definition updating (h : list op) : bool := fold_left (fun w o => updating1 o w) h false.
