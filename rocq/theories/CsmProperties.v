(** Theorems about availability and connector status bookkeeping of OCPP 2.x (properties C25-C27). *)
From Coq Require Import List ZArith Bool Lia.
From Verif Require Import CsmModel CsmSpec CsmProofs CsmProofs2 CsmProofs3 CsmProofs4.
Import ListNotations.
Open Scope Z_scope.

(** A station with two EVSEs, the first with two connectors. *)
Definition ex_structure : list (Z * Z) := [(1, 2); (2, 1)].
Definition ex0 : st := fst (boot ex_structure empty_table).
Lemma ex0_boot : boot ex_structure empty_table = (ex0, Ok).
Proof. reflexivity. Qed.
Definition yes : Z -> Z -> bool := fun _ _ => true.
Definition after (ops : list op) : st := fst (run ex0 ops).
Lemma after_run : forall ops, run ex0 ops = (after ops, snd (run ex0 ops)).
Proof. intros. apply surjective_pairing. Qed.

Lemma no_db_error_dec : forall h, forallb (fun x : event => match snd x with DbError => false | _ => true end) h = true ->
  no_db_error h.
Proof.
  intros h H. apply Forall_forall. intros x I E. rewrite forallb_forall in H. specialize (H x I). rewrite E in H.
  discriminate.
Qed.
Lemma all_delivered_dec : forall o, forallb (fun x => match x with ONote _ _ _ _ d => d | _ => true end) o = true ->
  all_delivered o.
Proof. intros o H e c v t d I. rewrite forallb_forall in H. exact (H _ I). Qed.
Lemma has_conn_dec : forall s e c, (1 <=? e) && (e <=? s_nev s) && (1 <=? c) && (c <=? s_ncon s e) = true -> has_conn s e c.
Proof. intros s e c H. repeat (apply andb_true_iff in H; destruct H as [H ?]). unfold has_conn, has_evse. lia. Qed.

(** ** C25 *)

Theorem effective_availability s e c : has_conn s e c ->
  (exists v, get_evse_effective s e = (Ok, v) /\ (v = Operative <-> s_cs s = Operative /\ s_ev s e = Operative)) /\
  (exists v, get_conn_effective s e c = (Ok, v) /\
     (v = Operative <-> s_cs s = Operative /\ s_ev s e = Operative /\ c_op (s_con s e c) = Operative)).
Proof.
  intros H. pose proof (proj2 (check_evse_iff s e) (proj1 H)) as HE. pose proof (proj2 (check_conn_ok s e c) H) as HC.
  split.
  - exists (evse_effective s e). unfold get_evse_effective. rewrite HE. split; [reflexivity|]. apply evse_effective_says.
  - exists (conn_effective s e c). unfold get_conn_effective, conn_effective. rewrite HE, HC. cbn [negb]. split.
    + destruct (evse_effective s e); reflexivity.
    + pose proof (conn_effective_says s e c) as X. unfold says, conn_on, evse_on, conn_effective in X. rewrite X. tauto.
Qed.
Print Assumptions effective_availability.
Example effective_availability_ex :
  let s := after [SetEvse 1 Inoperative false true true; SetConn 2 1 Operative false true] in
  has_conn s 1 2 /\ get_conn_effective s 1 2 = (Ok, Inoperative) /\ get_conn_effective s 2 1 = (Ok, Operative) /\
  get_evse_effective s 3 = (EvseOutOfRange, Inoperative).
Proof.
  cbv zeta. repeat match goal with |- _ /\ _ => split end; try (vm_compute; reflexivity). apply has_conn_dec. vm_compute. reflexivity.
Qed.

Theorem availability_announced m t s0 ops s h o s' out r :
  boot m t = (s0, Ok) -> run s0 ops = (s, h) -> no_db_error h ->
  step s o = (s', out, r) -> r <> DbError -> o <> TriggerAll -> is_restart o = false ->
  announced (s_cbcs s) (s_cs s = Operative) (s_cs s' = Operative) (cs_calls out) /\
  (forall e, has_evse s e -> announced (s_cbev s) (evse_on s e) (evse_on s' e) (evse_calls e out)) /\
  (forall e c, has_conn s e c -> announced (s_cbcon s) (conn_on s e c) (conn_on s' e c) (conn_calls e c out)) /\
  (forall e, ~ has_evse s e -> evse_calls e out = []) /\
  (forall e c, ~ has_conn s e c -> conn_calls e c out = []).
Proof.
  intros B R N H N1 N2 N3. eapply step_announces; try eassumption.
  eapply run_synced; [|exact R|exact N]. apply (boot_spec _ _ _ _ B).
Qed.
Print Assumptions availability_announced.
Example availability_announced_ex :
  let ops := [RegisterCs; RegisterEvse; RegisterConn; SetEvse 2 Inoperative true true true;
              SetConn 1 1 Inoperative false true] in
  boot ex_structure empty_table = (ex0, Ok) /\ no_db_error (snd (run ex0 ops)) /\
  snd (fst (step (after ops) (SetCs Inoperative true true))) = [OCs Inoperative; OEvse 1 Inoperative; OConn 1 2 Inoperative].
Proof.
  split; [reflexivity|]. split; [apply no_db_error_dec|]; vm_compute; reflexivity.
Qed.

Theorem callbacks_registered m t s0 ops s h :
  boot m t = (s0, Ok) -> no_restart ops -> run s0 ops = (s, h) ->
  (s_cbcs s = true <-> In RegisterCs ops) /\ (s_cbev s = true <-> In RegisterEvse ops) /\
  (s_cbcon s = true <-> In RegisterConn ops).
Proof.
  intros B NR R. destruct (boot_spec _ _ _ _ B) as (_&_&_&_&U&_&C1&C2&C3&_).
  destruct (run_cbs _ _ _ _ NR U R) as (A1 & A2 & A3). rewrite A1, A2, A3, C1, C2, C3.
  repeat split; intros X; try (right; exact X); destruct X as [X|X]; try exact X; discriminate.
Qed.
Print Assumptions callbacks_registered.
Example callbacks_registered_ex : s_cbcs (after [RegisterEvse; SetCs Inoperative false true]) = false /\
  s_cbev (after [RegisterEvse; SetCs Inoperative false true]) = true.
Proof. split; reflexivity. Qed.

Theorem trigger_all_announces s s' out r : s_up s = true -> step s TriggerAll = (s', out, r) ->
  r = Ok /\ cs_calls out = (if s_cbcs s then [s_cs s] else []) /\
  (forall e, has_evse s e -> exists v, says v (evse_on s e) /\ evse_calls e out = if s_cbev s then [v] else []) /\
  (forall e c, has_conn s e c -> exists v, says v (conn_on s e c) /\ conn_calls e c out = if s_cbcon s then [v] else []).
Proof.
  intros U H. destruct (trigger_all_calls _ _ _ _ U H) as (A & B & C & D & _). auto.
Qed.
Print Assumptions trigger_all_announces.
Example trigger_all_announces_ex :
  snd (fst (step (after [RegisterEvse; RegisterConn; SetConn 1 2 Inoperative false true]) TriggerAll)) =
  [OEvse 1 Operative; OConn 1 1 Operative; OConn 1 2 Inoperative; OEvse 2 Operative; OConn 2 1 Operative].
Proof. reflexivity. Qed.

Theorem individual_status_set m t s0 r0 ops s h o s' out r e c :
  boot m t = (s0, r0) -> run s0 ops = (s, h) -> step s o = (s', out, r) -> s_up s' = true -> exists_comp s' e c ->
  individual s' e c =
    individual_after e c (individual s e c) (match s_db s' e c with Some v => v | None => Operative end) (o, out, r).
Proof.
  intros B R H U X. pose proof (boot_avail_inv _ _ _ _ B) as I.
  destruct (run_rows _ _ _ _ I R) as [I2 _].
  destruct (step_individual _ _ _ _ _ I2 H) as (_ & _ & K). exact (K U e c X).
Qed.
Print Assumptions individual_status_set.
Example individual_status_set_ex :
  let ops := [SetConn 1 2 Inoperative false true] in
  individual (after ops) 1 2 = Inoperative /\ exists_comp (after ops) 1 2 /\
  individual (after (ops ++ [RestoreConn 1 2])) 1 2 = Operative.
Proof. split; [reflexivity|]. split; [|reflexivity]. right. right. apply has_conn_dec. vm_compute. reflexivity. Qed.

Theorem refused_call_changes_nothing s o s' out r : step s o = (s', out, r) ->
  r = EvseOutOfRange \/ r = ConnectorOutOfRange \/ r = NoObject -> s' = s /\ out = [].
Proof. exact (refused_unchanged s o s' out r). Qed.
Print Assumptions refused_call_changes_nothing.
Example refused_call_changes_nothing_ex :
  snd (step ex0 (SetConn 1 3 Inoperative true true)) = ConnectorOutOfRange /\
  snd (step ex0 (SetEvse 0 Inoperative true true true)) = EvseOutOfRange.
Proof. split; reflexivity. Qed.

(** The second, unguarded insertion of set_evse_individual_operational_status: the EVSE changes, nobody is told. *)
Theorem evse_change_announced_refuted :
  exists ops o s' out, let s := fst (run ex0 ops) in
  step s o = (s', out, DbError) /\ no_db_error (snd (run ex0 ops)) /\ s_cbev s = true /\ has_evse s 1 /\
  evse_on s 1 /\ ~ evse_on s' 1 /\ out = [].
Proof.
  exists [RegisterEvse], (SetEvse 1 Inoperative true true false).
  destruct (step (fst (run ex0 [RegisterEvse])) (SetEvse 1 Inoperative true true false)) as [[s' out] r] eqn:E.
  exists s', out. cbv zeta. rewrite E.
  assert (X : r = DbError /\ out = [] /\ s_ev s' 1 = Inoperative).
  { split; [change (snd (s', out, r) = DbError)|split; [change (snd (fst (s', out, r)) = [])|
      change (s_ev (fst (fst (s', out, r))) 1 = Inoperative)]]; rewrite <- E; vm_compute; reflexivity. }
  destruct X as (-> & -> & X). split; [reflexivity|]. split.
  { apply no_db_error_dec. vm_compute. reflexivity. }
  split; [reflexivity|]. split; [apply (has_conn_dec _ 1 1); vm_compute; reflexivity|]. split; [split; reflexivity|].
  split; [|reflexivity]. intros [_ Y]. congruence.
Qed.
Print Assumptions evse_change_announced_refuted.

(** ** C26 *)

Theorem availability_survives_restart m s0 r0 ops s h m2 s2 out r :
  boot m empty_table = (s0, r0) -> run s0 ops = (s, h) -> step s (Restart m2) = (s2, out, r) ->
  (r = Ok <-> forall e, 1 <= e <= Z.of_nat (length m2) -> exists n, lookup_structure m2 e = Some n) /\
  (r = Ok ->
    s_cs s2 = last_persisted 0 0 h /\ s_nev s2 = Z.of_nat (length m2) /\
    forall e, has_evse s2 e ->
      (exists n, lookup_structure m2 e = Some n /\ s_ncon s2 e = Z.max 0 n) /\
      s_ev s2 e = last_persisted e 0 h /\
      forall c, has_conn s2 e c -> s_con s2 e c = Conn (last_persisted e c h) false false false false).
Proof. intros B R H. exact (restart_restores m s0 r0 ops s h B R m2 s2 out r H). Qed.
Print Assumptions availability_survives_restart.
Example availability_survives_restart_ex :
  let ops := [SetCs Inoperative false true; SetConn 1 2 Inoperative true true; SetEvse 2 Inoperative true true true;
              Restart [(1, 1)]; SetEvse 1 Inoperative true false false; SetConn 1 2 Operative true true] in
  let s := after (ops ++ [Restart [(2, 1); (1, 2)]]) in
  s_up s = true /\ s_cs s = Operative /\ s_ev s 1 = Operative /\ s_ev s 2 = Inoperative /\
  map c_op [s_con s 1 1; s_con s 1 2; s_con s 2 1] = [Operative; Inoperative; Operative] /\
  map snd (snd (run ex0 ops)) = [Ok; Ok; Ok; Ok; DbError; ConnectorOutOfRange].
Proof. cbv zeta. repeat match goal with |- _ /\ _ => split end; vm_compute; reflexivity. Qed.

(** The database row of a component is the last value that was to be persisted. *)
Theorem persisted_value m s0 r0 ops s h e c :
  boot m empty_table = (s0, r0) -> run s0 ops = (s, h) -> s_up s = true -> exists_comp s e c ->
  get_availability e c (s_db s) = Some (last_persisted e c h).
Proof.
  intros B R U X. pose proof (history_rows _ _ _ _ _ _ B R e c) as H.
  destruct (run_rows _ _ _ _ (boot_avail_inv _ _ _ _ B) R) as [I _]. specialize (I U e c X).
  unfold row in H. unfold get_availability. destruct (s_db s e c); [congruence|contradiction].
Qed.
Print Assumptions persisted_value.
Example persisted_value_ex :
  let ops := [SetConn 1 2 Inoperative true true; SetConn 1 2 Operative false true] in
  get_availability 1 2 (s_db (after ops)) = Some Inoperative /\ c_op (s_con (after ops) 1 2) = Operative /\
  get_conn_persisted (after ops) 1 2 = (Ok, Inoperative).
Proof. cbv zeta. repeat match goal with |- _ /\ _ => split end; vm_compute; reflexivity. Qed.

(** ** C27 *)

Theorem connector_status_precedence k v : to_connector_status k = v <-> has_status k v.
Proof.
  split; [intros <-; apply status_spec|]. intros H. symmetry. apply status_unique. exact H.
Qed.
Print Assumptions connector_status_precedence.
Example connector_status_precedence_ex : has_status (Conn Operative false true true false) Occupied.
Proof. apply connector_status_precedence. reflexivity. Qed.

(** The flags are those of the events since the start. *)
Theorem connector_flags m t s0 ops s h e c :
  boot m t = (s0, Ok) -> no_restart ops -> run s0 ops = (s, h) -> has_conn s e c ->
  (c_faulted (s_con s e c), c_reserved (s_con s e c), c_occupied (s_con s e c), c_unavail (s_con s e c)) =
  fold_left (flags_after e c) h (false, false, false, false).
Proof.
  intros B NR R HC. destruct (boot_spec _ _ _ _ B) as (_&_&_&_&U&_&_&_&_&_&_&_&_&K).
  destruct (run_view _ _ _ _ NR U R) as (_ & N1 & N2 & V).
  assert (HC0 : has_conn s0 e c) by (unfold has_conn, has_evse in *; rewrite <- N1, <- N2; exact HC).
  destruct (V e c HC0) as [_ F]. unfold flags_of in F. rewrite F.
  destruct (K eq_refl e (proj1 HC0)) as (_ & _ & _ & K2). destruct (K2 c HC0) as [-> _]. reflexivity.
Qed.
Print Assumptions connector_flags.
Example connector_flags_ex :
  let ops := [submit_event 1 2 PlugIn true; submit_event 1 2 EvUnavailable true; submit_event 1 2 Error true;
              submit_event 1 2 ErrorCleared true; submit_event 1 1 Reserve true; submit_event 1 3 Error true] in
  no_restart ops /\ s_con (after ops) 1 2 = Conn Operative false false true true /\
  s_con (after ops) 1 1 = Conn Operative false true false false.
Proof. split; [repeat (apply Forall_cons; [reflexivity|]); apply Forall_nil|split; reflexivity]. Qed.

(** The flag each event of a connector sets or clears; nothing else changes, here or at other connectors. *)
Theorem connector_event m t s0 ops s h ev d s' out r e c e' c' :
  boot m t = (s0, Ok) -> no_restart ops -> run s0 ops = (s, h) -> has_conn s e c ->
  step s (submit_event e' c' ev d) = (s', out, r) -> r = Ok ->
  let k := s_con s e c in
  let k' := s_con s' e c in
  (c_faulted k', c_reserved k', c_occupied k', c_unavail k') =
  if (e' =? e) && (c' =? c) then
    match ev with
    | PlugIn => (c_faulted k, c_reserved k, true, c_unavail k)
    | PlugOut => (c_faulted k, c_reserved k, false, c_unavail k)
    | Reserve => (c_faulted k, true, c_occupied k, c_unavail k)
    | ReservationCleared => (c_faulted k, false, c_occupied k, c_unavail k)
    | Error => (true, c_reserved k, c_occupied k, c_unavail k)
    | ErrorCleared => (false, c_reserved k, c_occupied k, c_unavail k)
    | EvUnavailable => (c_faulted k, c_reserved k, c_occupied k, true)
    | UnavailableCleared => (c_faulted k, c_reserved k, c_occupied k, false)
    end
  else (c_faulted k, c_reserved k, c_occupied k, c_unavail k).
Proof.
  intros B NR R HC H Hr k k'. destruct (boot_spec _ _ _ _ B) as (_&_&_&_&U&_).
  destruct (run_view _ _ _ _ NR U R) as (U1 & _ & _ & _).
  assert (NR1 : is_restart (submit_event e' c' ev d) = false) by (destruct ev; reflexivity).
  destruct (step_reports _ _ _ _ _ NR1 U1 H) as (_ & _ & _ & A). destruct (A e c HC) as (F & _).
  unfold flags_of in F. fold k k' in F. rewrite F, Hr. destruct ev; reflexivity.
Qed.
Print Assumptions connector_event.
Example connector_event_ex :
  let ops := [submit_event 1 2 PlugIn true; submit_event 1 2 EvUnavailable true] in
  snd (step (after ops) (submit_event 1 2 PlugOut true)) = Ok /\
  snd (step (after ops) (submit_event 1 2 UnavailableCleared true)) = Ok /\
  s_con (after (ops ++ [submit_event 1 2 PlugOut true])) 1 2 = Conn Operative false false false true /\
  s_con (after (ops ++ [submit_event 1 2 UnavailableCleared true])) 1 2 = Conn Operative false false true false.
Proof. cbv zeta. repeat match goal with |- _ /\ _ => split end; vm_compute; reflexivity. Qed.

(** Which notifications a call causes, with which content. *)
Theorem notifications_of_a_call m t s0 ops s h o s' out r e c :
  boot m t = (s0, Ok) -> no_restart ops -> run s0 ops = (s, h) -> is_restart o = false -> step s o = (s', out, r) ->
  has_conn s e c ->
  exists now, has_status (s_con s' e c) now /\
    due_notes (due (c_reserved (s_con s e c)) e c o) (csms_view e c (outs_of h) Available) now (notes e c out).
Proof.
  intros B NR R NR1 H HC. destruct (boot_spec _ _ _ _ B) as (_&_&_&_&U&_&_&_&_&_&_&_&RP&K).
  destruct (run_view _ _ _ _ NR U R) as (U1 & N1 & N2 & V).
  assert (HC0 : has_conn s0 e c) by (unfold has_conn, has_evse in *; rewrite <- N1, <- N2; exact HC).
  destruct (V e c HC0) as [VR _].
  destruct (K eq_refl e (proj1 HC0)) as (_ & _ & _ & K2). destruct (K2 c HC0) as [K3 _].
  rewrite RP, K3 in VR. cbn in VR.
  destruct (step_reports _ _ _ _ _ NR1 U1 H) as (_ & _ & _ & A). destruct (A e c HC) as (_ & A2 & _).
  exists (status_of s' e c). split; [apply status_spec|]. rewrite A2, VR. apply sends_due.
Qed.
Print Assumptions notifications_of_a_call.
Example notifications_of_a_call_ex :
  let ops := [SetOccupied 1 1 true false; SetOccupied 1 2 true true] in
  snd (fst (step (after ops) (SendChanged yes))) = [ONote 1 1 Occupied false true] /\
  snd (fst (step (after ops) (SendAll yes))) =
    [ONote 1 1 Occupied false true; ONote 1 2 Occupied false true; ONote 2 1 Available false true] /\
  snd (fst (step (after ops) (SendOne 1 2 true))) = [ONote 1 2 Occupied true true].
Proof. cbv zeta. repeat match goal with |- _ /\ _ => split end; vm_compute; reflexivity. Qed.

(** With everything delivered, the CSMS knows the status, except whether a reserved connector is plugged in. *)
Theorem connector_status_reported m t s0 ops s h e c :
  boot m t = (s0, Ok) -> no_restart ops -> run s0 ops = (s, h) -> all_delivered (outs_of h) -> has_conn s e c ->
  has_status (s_con s e c) (csms_view e c (outs_of h) Available) \/
  reserved_exception (s_con s e c) (csms_view e c (outs_of h) Available).
Proof.
  intros B NR R AD HC. destruct (boot_spec _ _ _ _ B) as (_&_&_&_&U&_&_&_&_&_&_&_&RP&K).
  destruct (run_view _ _ _ _ NR U R) as (U1 & N1 & N2 & V).
  assert (HC0 : has_conn s0 e c) by (unfold has_conn, has_evse in *; rewrite <- N1, <- N2; exact HC).
  destruct (V e c HC0) as [VR _].
  destruct (K eq_refl e (proj1 HC0)) as (_ & _ & _ & K2). destruct (K2 c HC0) as [K3 _].
  pose proof (run_report_inv _ _ _ _ NR U R AD e c HC0 (or_introl (RP e c))) as I.
  rewrite RP, K3 in VR. cbn in VR. rewrite VR in I.
  destruct I as [I|I]; [left; rewrite I; apply status_spec|right; exact I].
Qed.
Print Assumptions connector_status_reported.
Example connector_status_reported_ex :
  let ops := [SetReserved 1 1 true true; SetOccupied 1 1 true true; SetFaulted 2 1 true true; SetOccupied 2 1 true true] in
  let h := snd (run ex0 ops) in
  all_delivered (outs_of h) /\ csms_view 1 1 (outs_of h) Available = Reserved /\
  csms_view 2 1 (outs_of h) Available = Faulted /\ to_connector_status (s_con (after ops) 1 1) = Occupied.
Proof.
  split; [apply all_delivered_dec|repeat split]; vm_compute; reflexivity.
Qed.

(** After a reconnect: whatever was lost, sending the changed statuses makes the CSMS' view right again. *)
Theorem changed_statuses_resynchronise m t s0 ops s h d s' out r e c :
  boot m t = (s0, Ok) -> no_restart ops -> run s0 ops = (s, h) -> step s (SendChanged d) = (s', out, r) ->
  has_conn s e c -> d e c = true -> has_status (s_con s' e c) (csms_view e c (outs_of h ++ out) Available).
Proof.
  intros B NR R H HC D.
  destruct (notifications_of_a_call _ _ _ _ _ _ (SendChanged d) _ _ _ _ _ B NR R eq_refl H HC) as (now & HN & DN).
  cbn [due due_notes] in DN. unfold csms_view in *. rewrite notes_app, fold_left_app.
  set (v := fold_left _ (notes e c (outs_of h)) Available) in *.
  assert (X : v = now \/ v <> now).
  { destruct (cstat_eqb v now) eqn:Q; [left; apply cstat_eqb_eq; exact Q|right]. intros E. apply cstat_eqb_eq in E. congruence. }
  destruct DN as [D1 D2]. destruct X as [X|X].
  - rewrite D1 by auto. cbn. rewrite X. exact HN.
  - rewrite D2 by (intros [_ Y]; contradiction). cbn. rewrite D. exact HN.
Qed.
Print Assumptions changed_statuses_resynchronise.
Example changed_statuses_resynchronise_ex :
  let ops := [SetReserved 1 1 true false; SetOccupied 1 1 true true] in
  csms_view 1 1 (outs_of (snd (run ex0 ops))) Available = Available /\
  csms_view 1 1 (outs_of (snd (run ex0 (ops ++ [SendChanged yes])))) Available = Occupied.
Proof. split; reflexivity. Qed.

(** The unplugging of a reserved connector is never reported: the CSMS keeps seeing Occupied. *)
Theorem unplug_while_reserved_reported_refuted :
  exists ops, let '(s, h) := run ex0 ops in
  no_restart ops /\ all_delivered (outs_of h) /\ has_conn s 1 1 /\
  csms_view 1 1 (outs_of h) Available = Occupied /\ c_occupied (s_con s 1 1) = false /\
  has_status (s_con s 1 1) Reserved.
Proof.
  exists [SetOccupied 1 1 true true; SetReserved 1 1 true true; SetOccupied 1 1 false true].
  destruct (run ex0 _) as [s h] eqn:E.
  assert (X : outs_of h = [ONote 1 1 Occupied false true] /\ s_con s 1 1 = Conn Operative false true false false /\
              s_nev s = 2 /\ s_ncon s 1 = 2).
  { split; [change (outs_of (snd (s, h)) = [ONote 1 1 Occupied false true])|
      split; [change (s_con (fst (s, h)) 1 1 = Conn Operative false true false false)|
      split; [change (s_nev (fst (s, h)) = 2)|change (s_ncon (fst (s, h)) 1 = 2)]]];
    rewrite <- E; vm_compute; reflexivity. }
  destruct X as (X1 & X2 & X3 & X4).
  split; [repeat (apply Forall_cons; [reflexivity|]); apply Forall_nil|].
  rewrite X1, X2. split; [intros e c v t d I; cbn in I; intuition congruence|].
  split; [unfold has_conn, has_evse; rewrite X3, X4; lia|]. repeat split.
Qed.
Print Assumptions unplug_while_reserved_reported_refuted.

(** get_connector_effective_status ignores that the connector itself was made inoperative. *)
Theorem effective_status_of_inoperative_connector_refuted :
  exists s e c, s_up s = true /\ has_conn s e c /\ get_conn_effective s e c = (Ok, Inoperative) /\
  get_conn_effective_status s e c = (Ok, Available).
Proof.
  exists (after [SetConn 1 1 Inoperative true true]), 1, 1. split; [reflexivity|]. split; [apply has_conn_dec; vm_compute; reflexivity|].
  split; reflexivity.
Qed.
Print Assumptions effective_status_of_inoperative_connector_refuted.

(** Otherwise it is Unavailable below an inoperative EVSE or station and the connector's own status elsewhere. *)
Theorem effective_connector_status s e c : has_conn s e c ->
  exists v, get_conn_effective_status s e c = (Ok, v) /\
  (evse_on s e -> has_status (s_con s e c) v) /\ (~ evse_on s e -> v = Unavailable).
Proof.
  intros H. exists (conn_effective_status s e c). unfold get_conn_effective_status.
  rewrite (proj2 (check_conn_ok s e c) H). split; [reflexivity|].
  pose proof (evse_effective_says s e) as X. unfold says in X. unfold conn_effective_status.
  destruct (evse_effective s e) eqn:E.
  - split; intros Y; [apply status_spec|]. exfalso. apply Y. apply X. reflexivity.
  - split; intros Y; [|reflexivity]. apply X in Y. discriminate.
Qed.
Print Assumptions effective_connector_status.
Example effective_connector_status_ex :
  let s := after [SetEvse 1 Inoperative false true true; SetOccupied 1 1 true true; SetOccupied 2 1 true true] in
  has_conn s 1 1 /\ get_conn_effective_status s 1 1 = (Ok, Unavailable) /\ get_conn_effective_status s 2 1 = (Ok, Occupied).
Proof.
  cbv zeta. repeat match goal with |- _ /\ _ => split end; try (vm_compute; reflexivity). apply has_conn_dec. vm_compute. reflexivity.
Qed.
