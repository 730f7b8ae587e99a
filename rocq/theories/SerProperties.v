(** C71, C72: messages survive the wire; what is accepted as a message. *)
From Coq Require Import String ZArith List Bool Lia.
From Verif Require Import StrModel JsonModel JsonProofs FrameModel FrameSpec FrameProperties EnumModel EnumTables EnumProperties DtModel DtSpec SerModel SerTables SerSpec SerProofs SerProofs2 SerProofs3.
Import ListNotations.
Local Open Scope list_scope.
Local Open Scope string_scope.
Local Open Scope Z_scope.

Lemma type_sound : forall n t, In (n, t) all_types -> sound t = true.
Proof. intros n t I. pose proof all_sound as S. rewrite forallb_forall in S. exact (S _ I). Qed.
Lemma type_direct : forall n t, In (n, t) all_types -> direct t = true.
Proof.
  assert (D : forallb (fun p => direct (snd p)) all_types = true) by (vm_compute; reflexivity). intros n t I. rewrite forallb_forall in D. exact (D _ I).
Qed.
(** A message of an OCPP version: its struct's name, the action its get_type names, its type. *)
Definition listed (x : string * string * string * ty) : bool :=
  let '(_, _, _, t) := x in sound t && direct t.
Lemma messages_listed : forallb listed all_messages = true.
Proof. vm_compute. reflexivity. Qed.

Lemma listed_type : forall n t, assoc n all_types = Some t -> In (n, t) all_types.
Proof.
  intros n t. induction all_types as [|[k u] l IH]; cbn; [discriminate|]. destruct (String.eqb_spec n k) as [->|N]; [intros E; injection E as ->; auto|auto].
Qed.

(** ** Writing *)

(** Every value of every struct is written, in its proper form: all its members and nothing else. *)
Theorem values_are_written :
  forall F n t v, In (n, t) all_types -> typed F t v ->
  exists j, to_json t v = Some j /\ represents F true t (to_milliseconds v) j /\ parse (dump j) = Some j.
Proof.
  intros F n t v I T. destruct (writing F t (type_sound n t I) Plain (written_direct t (type_direct n t I)) v T) as (j&P&R&W).
  exists j. split; [exact P|]. split; [exact R|]. exact (parse_dump j W).
Qed.
Print Assumptions values_are_written.

(** ** Reading *)

(** Every proper form of a value, also with members nobody knows, is read as the value. *)
Theorem proper_forms_are_read :
  forall F strict n t v j, In (n, t) all_types -> represents F strict t v j -> from_json F t j = Some v.
Proof.
  intros F s n t v j I R. apply represents_accepts in R. apply (reading F t (type_sound n t I) Plain (readable_direct t (type_direct n t I))). exact R.
Qed.
Print Assumptions proper_forms_are_read.
(** No JSON is a proper form of two values. *)
Theorem proper_forms_are_unambiguous :
  forall F s s' n t v w j, In (n, t) all_types -> represents F s t v j -> represents F s' t w j -> v = w.
Proof. intros F s s' n t v w j I A B. apply (proper_forms_are_read F s n t v j I) in A. apply (proper_forms_are_read F s' n t w j I) in B. congruence. Qed.
Print Assumptions proper_forms_are_unambiguous.
(** Written as text and read again, a value is the same but for fractions of milliseconds. *)
Theorem values_survive_text :
  forall F n t v, In (n, t) all_types -> typed F t v ->
  exists j, to_json t v = Some j /\ exists j', parse (dump j) = Some j' /\ from_json F t j' = Some (to_milliseconds v).
Proof.
  intros F n t v I T. destruct (values_are_written F n t v I T) as (j&P&R&D). exists j. split; [exact P|]. exists j. split; [exact D|]. exact (proper_forms_are_read F true n t _ j I R).
Qed.
Print Assumptions values_survive_text.

(** ** Messages on the wire *)

(** Every request and every response arrives as what was sent. *)
Theorem messages_arrive :
  forall F version n action t v id, In (version, n, action, t) all_messages -> typed F t v -> (String.length id <= 36)%nat ->
  exists j, to_json t v = Some j /\
    (exists r, receive_head (wire (Call id action j)) = Ret r /\ r_id r = id /\ r_action r = Some action /\
       exists p, call_from_json (r_message r) = Ret (id, p) /\ from_json F t p = Some (to_milliseconds v)) /\
    (exists r, receive_head (wire (CallResult id j)) = Ret r /\ r_id r = id /\
       exists p, callresult_from_json (r_message r) = Ret (id, p) /\ from_json F t p = Some (to_milliseconds v)).
Proof.
  intros F version n action t v id I T L. pose proof messages_listed as M. rewrite forallb_forall in M. specialize (M _ I). cbn in M. apply andb_true_iff in M as [S D].
  destruct (writing F t S Plain (written_direct t D) v T) as (j&P&R&W). exists j. split; [exact P|].
  assert (Rd : from_json F t j = Some (to_milliseconds v)). { apply (reading F t S Plain (readable_direct t D)). exact (represents_accepts F true t _ j R). }
  split.
  - destruct (frame_round_trip (Call id action j) W L) as (r&A&B&C1&C2&C3). exists r. repeat split; try assumption. exists j. auto.
  - destruct (frame_round_trip (CallResult id j) W L) as (r&A&B&C1&C2&C3). exists r. repeat split; try assumption. exists j. auto.
Qed.
Print Assumptions messages_arrive.

(** Names: a request X has the action X, its response the type XResponse; both are known message types; each request has a
    response and each response a request; no two messages of a version share their type. *)
Definition types_of (version : string) : enum := if String.eqb version "v16" then e_v16_messagetype else e_v2_messagetype.
Theorem actions_are_named :
  forall version n action t, In (version, n, action, t) all_messages ->
  of_wire (types_of version) action = Some action /\
  exists x, (n = x ++ "Request" /\ action = x /\ exists t', In (version, x ++ "Response", x ++ "Response", t') all_messages) \/
            (n = x ++ "Response" /\ action = x ++ "Response" /\ exists t', In (version, x ++ "Request", x, t') all_messages).
Proof.
  intros version n action t I.
  set (ok := fun m : string * string * string * ty => let '(v, n, a, _) := m in
    is (of_wire (types_of v) a) a &&
    ((String.eqb n (a ++ "Request") && existsb (fun m' => let '(v', n', a', _) := m' in String.eqb v v' && String.eqb n' (a ++ "Response") && String.eqb a' (a ++ "Response")) all_messages) ||
     (let x := substring 0 (String.length n - 8) n in String.eqb n (x ++ "Response") && String.eqb a n && existsb (fun m' => let '(v', n', a', _) := m' in String.eqb v v' && String.eqb n' (x ++ "Request") && String.eqb a' x) all_messages))).
  assert (A : forallb ok all_messages = true) by (vm_compute; reflexivity). rewrite forallb_forall in A. specialize (A _ I). unfold ok in A. apply andb_true_iff in A as [A B]. apply is_iff in A. split; [exact A|].
  apply orb_true_iff in B as [B|B]; rewrite !andb_true_iff, !String.eqb_eq in B.
  - destruct B as [-> B]. exists action. left. split; [reflexivity|]. split; [reflexivity|]. apply existsb_exists in B as ([[[v' n'] a'] t']&I'&B). rewrite !andb_true_iff, !String.eqb_eq in B. destruct B as [[<- ->] ->]. eauto.
  - destruct B as [[B1 ->] B]. exists (substring 0 (String.length n - 8) n). right. split; [exact B1|]. split; [exact B1|]. apply existsb_exists in B as ([[[v' n'] a'] t']&I'&B).
    rewrite !andb_true_iff, !String.eqb_eq in B. destruct B as [[<- ->] ->]. eauto.
Qed.
Print Assumptions actions_are_named.
Theorem actions_are_unique :
  forall version n n' action t t', In (version, n, action, t) all_messages -> In (version, n', action, t') all_messages -> n = n' /\ t = t'.
Proof.
  intros version n n' action t t' I I'.
  assert (N : forall A B C (l : list (A * B * C * ty)) (f : A * B * C * ty -> string), NoDup (map f l) -> forall x y, In x l -> In y l -> f x = f y -> x = y).
  { clear. intros A B C l f. induction l as [|a l IH]; intros N x y X Y E; [destruct X|]. cbn in N. inversion N as [|? ? P Q]; subst. destruct X as [->|X], Y as [->|Y]; try reflexivity;
      [exfalso; apply P; rewrite E; apply in_map, Y|exfalso; apply P; rewrite <- E; apply in_map, X|apply IH; assumption]. }
  assert (D : NoDup (map (fun m : string * string * string * ty => let '(v, _, a, _) := m in v ++ "." ++ a) all_messages)).
  { apply nodup_iff. vm_compute. reflexivity. }
  pose proof (N _ _ _ _ _ D _ _ I I' eq_refl) as E. injection E as <- <-. auto.
Qed.
Print Assumptions actions_are_unique.

(** A value meeting the hypotheses: a MeterValue with a time, an optional enumerator and a float. *)
Definition example_floats : floats := Floats (fun t => t) (fun z => dump (JInt z)) (fun _ => 0).
Definition example_period : value := VStruct [Some (VInt 60); Some (VFloat "16.5"); None].
Definition example_schedule : value :=
  VStruct [Some (VEnum "A"); Some (VVec [example_period; VStruct [Some (VInt 120); Some (VFloat "0.0"); Some (VInt 3)]]); None; Some (VTime 1709164799999999999); None].
Example schedule_typed : In ("v16_ChargingSchedule", v16_ChargingSchedule) all_types /\ typed example_floats v16_ChargingSchedule example_schedule /\
  exists j, to_json v16_ChargingSchedule example_schedule = Some j /\
    dump j = "{""chargingRateUnit"":""A"",""chargingSchedulePeriod"":[{""limit"":16.5,""startPeriod"":60},{""limit"":0.0,""numberPhases"":3,""startPeriod"":120}],""startSchedule"":""2024-02-28T23:59:59.999Z""}"%string /\
    from_json example_floats v16_ChargingSchedule j = Some (to_milliseconds example_schedule).
Proof.
  split; [apply listed_type; vm_compute; reflexivity|]. split.
  - unfold example_schedule, example_period, v16_ChargingSchedule, v16_ChargingSchedulePeriod.
    assert (S : forall z, (z = 60 \/ z = 120 \/ z = 3) -> - 2 ^ 31 <= z < 2 ^ 31) by (intros z Hz; change (2 ^ 31) with 2147483648; lia).
    constructor. repeat apply Forall2_cons; cbn [fst snd]; try apply Forall2_nil; try (right; split; reflexivity); left; eexists; (split; [reflexivity|]).
    + constructor. left. reflexivity.
    + constructor. repeat apply Forall_cons; try apply Forall_nil; constructor; repeat apply Forall2_cons; cbn [fst snd]; try apply Forall2_nil; try (right; split; reflexivity); left; eexists; (split; [reflexivity|]);
        constructor; try reflexivity; apply S; auto.
    + constructor. split; [apply Z.leb_le|apply Z.ltb_lt]; vm_compute; reflexivity.
  - eexists. split; [vm_compute; reflexivity|]. split; vm_compute; reflexivity.
Qed.

(** ** What is accepted *)

(** Exactly this is accepted, and with this result. *)
Theorem accepted_exactly :
  forall F n t v j, In (n, t) all_types -> (from_json F t j = Some v <-> accepts F t v j).
Proof. intros F n t v j I. exact (reading F t (type_sound n t I) Plain (readable_direct t (type_direct n t I)) j v). Qed.
Print Assumptions accepted_exactly.
(** In particular, without one of its required members nothing is accepted. *)
Theorem required_members_are_required :
  forall F n ms ws rs m o j, In (n, Struct ms ws rs) all_types -> In (m, false, o) ms -> (forall x, ~ under j m x) -> from_json F (Struct ms ws rs) j = None.
Proof.
  intros F n ms ws rs m o j I Im U. destruct (from_json F (Struct ms ws rs) j) as [v|] eqn:E; [|reflexivity]. exfalso. apply (accepted_exactly F n _ v j I) in E.
  inversion E as [| | | | | | | | | | | |ms' ws' rs' vs j' Fo]; subst. destruct (in_combine ms vs _ (forall2_length _ _ _ Fo) Im) as (ov&Iv). pose proof (forall2_in _ _ _ _ _ Fo Iv) as X. cbn [fst snd] in X.
  destruct X as [(y&x&_&Ux&_)|[(s&x&_&Ux&_)|(_&O&_)]]; [exact (U x Ux)|exact (U x Ux)|discriminate O].
Qed.
Print Assumptions required_members_are_required.
(** An optional member is set exactly if it is there. *)
Theorem optional_members_are_set_when_there :
  forall F n ms ws rs j vs, In (n, Struct ms ws rs) all_types -> from_json F (Struct ms ws rs) j = Some (VStruct vs) ->
  Forall2 (fun m ov => ov <> None <-> exists x, under j (fst (fst m)) x) ms vs.
Proof.
  intros F n ms ws rs j vs I E. apply (accepted_exactly F n _ _ j I) in E. inversion E as [| | | | | | | | | | | |ms' ws' rs' vs' j' Fo]; subst.
  apply forall2_combine; [exact (forall2_length _ _ _ Fo)|]. intros m ov Im. pose proof (forall2_in _ _ _ _ _ Fo Im) as X. cbv beta in X. destruct X as [(y&x&->&Ux&_)|[(s&x&->&Ux&_)|(->&_&U)]].
  - split; [eauto|discriminate].
  - split; [eauto|discriminate].
  - split; [congruence|]. intros (x&Ux). exfalso. exact (U x Ux).
Qed.
Print Assumptions optional_members_are_set_when_there.
(** Finding: a number out of range is not refused but becomes another one: connector 4294967297 is connector 1. *)
Theorem only_proper_forms_are_accepted_refuted :
  exists F n t v j, In (n, t) all_types /\ from_json F t j = Some v /\ (forall s w, ~ represents F s t w j) /\
    j = JObj [("connectorId", JInt 4294967297)] /\ v = VStruct [Some (VInt 1)].
Proof.
  exists example_floats, "v16_UnlockConnectorRequest", v16_UnlockConnectorRequest, (VStruct [Some (VInt 1)]), (JObj [("connectorId", JInt 4294967297)]).
  split; [apply listed_type; vm_compute; reflexivity|]. split; [vm_compute; reflexivity|]. split; [|split; reflexivity].
  intros s w R. unfold v16_UnlockConnectorRequest in R. inversion R as [| | | | | | | | |ms ws rs vs o Fo]; subst. inversion Fo as [|m ov ms' vs' X Fo']; subst. cbn [fst snd] in X. destruct X as [(v&j&_&Hj&Rj)|(_&X&_)]; [|discriminate X].
  inversion Hj; subst; [|congruence]. inversion Rj; subst. change (2 ^ 31) with 2147483648 in *. lia.
Qed.
Print Assumptions only_proper_forms_are_accepted_refuted.
(** Finding: an array is accepted as a request without required members, and an object as a list. *)
Theorem only_objects_are_accepted_refuted :
  exists F n t v, In (n, t) all_types /\ from_json F t (JArr [JStr "nonsense"]) = Some v.
Proof.
  exists example_floats, "v16_HeartbeatRequest", v16_HeartbeatRequest, (VStruct []). split; [apply listed_type; vm_compute; reflexivity|]. vm_compute. reflexivity.
Qed.
Print Assumptions only_objects_are_accepted_refuted.
