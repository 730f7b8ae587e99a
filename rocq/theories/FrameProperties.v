(** C23 (frames) and C38 (split reports). *)
From Coq Require Import ZArith String Ascii List Bool Lia.
From Verif Require Import StrModel StrSpec StrProofs JsonModel JsonProofs FrameModel FrameSpec FrameProofs.
Import ListNotations.
Local Open Scope string_scope.
Local Open Scope Z_scope.

(** ** C23 *)

(** The text of every message is the array OCPP-J prescribes. *)
Theorem frame_text :
  (forall id action p, dump (call_to_json id action p) = wire (Call id action p)) /\
  (forall id p, dump (callresult_to_json id p) = wire (CallResult id p)) /\
  (forall id c d x, dump (callerror_to_json id c d x) = wire (CallError id c d x)).
Proof.
  split; [|split]; intros.
  - exact (dump_frame (Call id action p)).
  - exact (dump_frame (CallResult id p)).
  - exact (dump_frame (CallError id c d x)).
Qed.
Print Assumptions frame_text.

(** Receiving the text of a message whose id has at most 36 characters yields its kind, its id and, for a CALL, its
    action; reading it as that kind yields the parts it was made of. *)
Theorem frame_round_trip :
  forall f, wf (frame_payload f) -> (String.length (frame_id f) <= 36)%nat ->
    exists r, receive_head (wire f) = Ret r /\ r_id r = frame_id f /\
      match f with
      | Call i a p => r_type r = CALL /\ r_action r = Some a /\ call_from_json (r_message r) = Ret (i, p)
      | CallResult i p => r_type r = CALLRESULT /\ r_action r = None /\ callresult_from_json (r_message r) = Ret (i, p)
      | CallError i c d x => r_type r = CALLERROR /\ r_action r = None /\ callerror_from_json (r_message r) = Ret (i, c, d, x)
      end.
Proof.
  intros f W L. unfold receive_head. rewrite <- dump_frame, (parse_dump _ (wf_frame f W)).
  apply id_ok in L.
  destruct f; cbn in L |- *; rewrite ?L; cbn; eexists; (split; [reflexivity|]); cbn; rewrite ?L; auto.
Qed.
Print Assumptions frame_round_trip.

Example frame_round_trip_ex :
  let f := Call "a7" "Reset" (JObj [("type", JStr "Soft \""now\""")]) in
  wf (frame_payload f) /\
  wire f = "[2,""a7"",""Reset"",{""type"":""Soft \\\""now\\\""""}]" /\
  receive_head (wire f) =
    Ret {| r_message := JArr [JInt 2; JStr "a7"; JStr "Reset"; frame_payload f]; r_id := "a7"; r_type := CALL; r_action := Some "Reset" |}.
Proof.
  cbv zeta. split; [|split; vm_compute; reflexivity].
  apply wf_obj; [exact I|]. apply Forall_cons; [apply wf_str|apply Forall_nil].
Qed.

(** Hence no text is the text of two messages: kind, id and contents are determined. *)
Theorem frame_unambiguous :
  forall f g, wf (frame_payload f) -> wf (frame_payload g) -> wire f = wire g -> f = g.
Proof.
  intros f g Wf Wg E. pose proof (parse_dump _ (wf_frame f Wf)) as Pf. pose proof (parse_dump _ (wf_frame g Wg)) as Pg.
  rewrite dump_frame, E in Pf. rewrite dump_frame in Pg. rewrite Pg in Pf. injection Pf as H.
  destruct f, g; cbn in H; unfold call_to_json, callresult_to_json, callerror_to_json in H; congruence.
Qed.
Print Assumptions frame_unambiguous.

(** Which texts are taken for a message at all: JSON arrays whose second element is a string of at most 36 characters
    and, if the first element is 2, the third one is a string. The kind is read off the first element. (A floating-point
    number in the first place is left out of this model.) *)
Theorem receive_exact :
  forall text r,
    receive_head text = Ret r <->
    exists x id rest,
      parse text = Some (JArr (x :: JStr id :: rest)) /\ r_message r = JArr (x :: JStr id :: rest) /\
      r_id r = id /\ (String.length id <= 36)%nat /\
      ((x = JInt 2 /\ r_type r = CALL /\ exists a rest', rest = JStr a :: rest' /\ r_action r = Some a) \/
       (x = JInt 3 /\ r_type r = CALLRESULT /\ r_action r = None) \/
       (x = JInt 4 /\ r_type r = CALLERROR /\ r_action r = None) \/
       (x <> JInt 2 /\ x <> JInt 3 /\ x <> JInt 4 /\ r_type r = UNKNOWN /\ r_action r = None)).
Proof.
  intros text r. unfold receive_head. split.
  - destruct (parse text) as [j|]; [|discriminate].
    destruct j as [| | | | |l|]; try discriminate. destruct l as [|x [|y rest]]; try discriminate.
    cbn [getMessageId List.length Nat.ltb Nat.leb jat nth_error bind].
    destruct y; try discriminate. cbn [get_string bind].
    destruct (message_id s) as [id|w] eqn:Ei; [|discriminate]. cbn [bind]. apply id_ret in Ei. destruct Ei as [-> Li].
    cbn [getMessageTypeId type_number].
    assert (D : forall n, is_number n x = true -> x = JInt n).
    { intros n Hn. destruct x; try discriminate. cbn in Hn. apply Z.eqb_eq in Hn. congruence. }
    assert (D' : forall n, is_number n x = false -> x <> JInt n).
    { intros n Hn ->. cbn in Hn. rewrite Z.eqb_refl in Hn. discriminate. }
    destruct (is_number 2 x) eqn:E2.
    + apply D in E2. subst x. destruct rest as [|a rest]; [discriminate|]. cbn [jat nth_error bind].
      destruct a; try discriminate. cbn [get_string bind]. intros H. injection H as <-.
      exists (JInt 2), s, (JStr s0 :: rest). cbn. repeat (split; [reflexivity|]). split; [exact Li|]. left.
      repeat (split; [reflexivity|]). exists s0, rest. auto.
    + apply D' in E2. destruct (is_number 3 x) eqn:E3.
      * apply D in E3. subst x. intros H. injection H as <-. exists (JInt 3), s, rest. cbn. repeat (split; [reflexivity|]). split; [exact Li|]. right. left. auto.
      * apply D' in E3. destruct (is_number 4 x) eqn:E4.
        -- apply D in E4. subst x. intros H. injection H as <-. exists (JInt 4), s, rest. cbn. repeat (split; [reflexivity|]). split; [exact Li|]. right. right. left. auto.
        -- apply D' in E4. intros H. injection H as <-. exists x, s, rest. cbn. repeat (split; [reflexivity|]). split; [exact Li|].
           right. right. right. auto.
  - intros (x & id & rest & -> & M & I & L & C). apply id_ok in L.
    cbn [getMessageId List.length Nat.ltb Nat.leb jat nth_error bind get_string]. rewrite L. cbn [bind getMessageTypeId type_number].
    destruct r as [rm ri rt ra]. cbn in M, I, C |- *. subst rm ri.
    destruct C as [(-> & -> & a & rest' & -> & ->)|[(-> & -> & ->)|[(-> & -> & ->)|(N2 & N3 & N4 & -> & ->)]]]; try reflexivity.
    assert (D : forall n, x <> JInt n -> is_number n x = false).
    { intros n N. destruct x; try reflexivity. cbn. apply Z.eqb_neq. congruence. }
    rewrite (D 2 N2), (D 3 N3), (D 4 N4). reflexivity.
Qed.
Print Assumptions receive_exact.

Example receive_exact_ex :
  receive_head "[2,""x""]" = Throws "out_of_range" /\ receive_head "[2]" = Throws "MalformedRpcMessage" /\
  receive_head "{}" = Throws "type_error" /\ receive_head "[3, ""x""" = Throws "parse_error" /\
  receive_head " [ 7 , ""x"" ] " =
    Ret {| r_message := JArr [JInt 7; JStr "x"]; r_id := "x"; r_type := UNKNOWN; r_action := None |} /\
  receive_head "[3,""0123456789012345678901234567890123456"",{}]" = Throws "StringConversionException".
Proof. repeat match goal with |- _ /\ _ => split end; vm_compute; reflexivity. Qed.

(** What reading a message as a given kind gives, and for which JSON values. *)
Theorem from_json_exact :
  (forall j id p, call_from_json j = Ret (id, p) <->
     exists x a rest, j = JArr (x :: JStr id :: a :: p :: rest) /\ (String.length id <= 36)%nat) /\
  (forall j id p, callresult_from_json j = Ret (id, p) <->
     exists x rest, j = JArr (x :: JStr id :: p :: rest) /\ (String.length id <= 36)%nat) /\
  (forall j id c d p, callerror_from_json j = Ret (id, c, d, p) <->
     exists x rest, j = JArr (x :: JStr id :: JStr c :: JStr d :: p :: rest) /\ (String.length id <= 36)%nat).
Proof.
  split; [|split].
  - intros j id p. unfold call_from_json. split.
    + destruct j as [| | | | |l|]; try discriminate. destruct l as [|x [|y [|a [|q rest]]]]; try discriminate.
      cbn. destruct y; try discriminate. cbn. destruct (message_id s) eqn:E; [|discriminate]. apply id_ret in E. destruct E as [-> L].
      cbn. intros H. injection H as E1 E2. subst. exists x, a, rest. auto.
    + intros (x & a & rest & -> & L). apply id_ok in L. cbn. rewrite L. reflexivity.
  - intros j id p. unfold callresult_from_json. split.
    + destruct j as [| | | | |l|]; try discriminate. destruct l as [|x [|y [|q rest]]]; try discriminate.
      cbn. destruct y; try discriminate. cbn. destruct (message_id s) eqn:E; [|discriminate]. apply id_ret in E. destruct E as [-> L].
      cbn. intros H. injection H as E1 E2. subst. exists x, rest. auto.
    + intros (x & rest & -> & L). apply id_ok in L. cbn. rewrite L. reflexivity.
  - intros j id c d p. unfold callerror_from_json. split.
    + destruct j as [| | | | |l|]; try discriminate.
      destruct l as [|x [|y rest]]; try discriminate. cbn. destruct y; try discriminate. cbn.
      destruct (message_id s) eqn:E; [|discriminate]. apply id_ret in E. destruct E as [-> L]. cbn.
      destruct rest as [|y rest]; try discriminate. cbn. destruct y; try discriminate. cbn.
      destruct rest as [|y rest]; try discriminate. cbn. destruct y; try discriminate. cbn.
      destruct rest as [|y rest]; try discriminate. cbn. intros H. injection H as E1 E2 E3 E4. subst. exists x, rest. auto.
    + intros (x & rest & -> & L). apply id_ok in L. cbn. rewrite L. reflexivity.
Qed.
Print Assumptions from_json_exact.

(** Reading does not look at the kind: a CALL read as a CALLRESULT is accepted, its action taken for the payload. Whoever
    reads must have looked at the kind before. *)
Theorem from_json_checks_kind_refuted :
  exists f, wf (frame_payload f) /\ (exists i a p, f = Call i a p) /\
    exists j, parse (wire f) = Some j /\ exists r, callresult_from_json j = Ret r.
Proof.
  exists (Call "a7" "Reset" (JObj [])). split; [apply wf_obj; [exact I|apply Forall_nil]|]. split; [eauto|].
  eexists. split; [vm_compute; reflexivity|]. eexists. vm_compute. reflexivity.
Qed.
Print Assumptions from_json_checks_kind_refuted.

(** ** C38 *)

(** The messages carry all entries exactly once in order; they are numbered 0, 1, 2, ... and all but the last are marked
    as to be continued; no message is empty unless the report is. *)
Theorem split_lossless :
  forall r max ids l, nr_report_data r = Some l ->
    exists parts, parts <> [] /\ concat parts = l /\ (l <> [] -> Forall (fun p => p <> []) parts) /\
      create_call_payloads r max ids = numbered (nr_request_id r) (nr_generated_at r) ids 0 parts.
Proof.
  intros r max ids l E. destruct (create_call_payloads_spec r max ids l E) as (parts & A & B & C & D & _). eauto 6.
Qed.
Print Assumptions split_lossless.

(** The same on the wire: each text is read back as the part it is. *)
Theorem split_text :
  forall r max ids l, nr_report_data r = Some l -> Forall wf l -> int64_ok (nr_request_id r) = true ->
    Z.of_nat (List.length l) < 2 ^ 63 ->
    exists parts, concat parts = l /\
      map (fun p => parse (dump p)) (create_call_payloads r max ids) =
      map Some (numbered (nr_request_id r) (nr_generated_at r) ids 0 parts).
Proof.
  intros r max ids l E W R N. destruct (create_call_payloads_spec r max ids l E) as (parts & A & B & C & D & _).
  exists parts. split; [exact B|]. rewrite D.
  assert (Len : (List.length parts <= S (List.length l))%nat).
  { destruct l as [|x l].
    - pose proof (numbered_length (nr_request_id r) (nr_generated_at r) ids parts 0) as NL. rewrite <- D in NL.
      unfold create_call_payloads in NL. rewrite E in NL. cbn in NL. lia.
    - assert (NE : Forall (fun p => p <> []) parts) by (apply C; discriminate). rewrite <- B. clear -NE.
      induction NE as [|p ps Hp _ IH]; cbn; [lia|]. rewrite app_length. destruct p; [congruence|]. cbn in *. lia. }
  assert (Wp : Forall (Forall wf) parts).
  { rewrite <- B in W. clear -W. induction parts as [|p ps IH]; constructor; cbn in W; apply Forall_app in W; tauto. }
  assert (G : forall ps n, Forall (Forall wf) ps -> Z.of_nat n + Z.of_nat (List.length ps) <= 2 ^ 63 ->
    map (fun p => parse (dump p)) (numbered (nr_request_id r) (nr_generated_at r) ids n ps) =
    map Some (numbered (nr_request_id r) (nr_generated_at r) ids n ps)).
  { induction ps as [|p ps IH]; intros n F L; [reflexivity|]. inversion F; subst. cbn [List.length] in L.
    cbn [numbered map]. rewrite (IH (S n)); auto; [|lia]. f_equal. apply parse_dump. apply wf_part; auto.
    unfold int64_ok. apply andb_true_iff. rewrite !Z.leb_le. change (2 ^ 63) with 9223372036854775808 in L. lia. }
  apply G; auto. lia.
Qed.
Print Assumptions split_text.

(** Size: part number n of the result, if it holds more than one entry, is at most the limit plus one character per digit
    of n beyond the first, minus one if it is to be continued. In particular the limit holds for parts 0 to 9 and, if to be
    continued, 10 to 99. *)
Theorem split_size_partial :
  forall r max ids l n part more, nr_report_data r = Some l -> plain (ids n) ->
    nth_error (create_call_payloads r max ids) n = Some (report_part (nr_request_id r) (nr_generated_at r) n (ids n) part more) ->
    (2 <= List.length part)%nat ->
    (String.length (dump (report_part (nr_request_id r) (nr_generated_at r) n (ids n) part more)) + (if more then 1 else 0) <=
     max + (String.length (dump (JInt (Z.of_nat n))) - 1))%nat /\
    ((n < 10)%nat \/ (more = true /\ (n < 100)%nat) ->
     (String.length (dump (report_part (nr_request_id r) (nr_generated_at r) n (ids n) part more)) <= max)%nat).
Proof.
  intros r max ids l n part more E P H L. destruct (create_call_payloads_spec r max ids l E) as (parts & A & B & C & D & S).
  rewrite D, numbered_nth in H. destruct (nth_error parts n) as [q|] eqn:Q; [|discriminate].
  injection H as H1 H2. subst q. destruct (S n part Q) as [S1 _]. cbn [Nat.add] in S1. specialize (S1 L).
  pose proof (part_size r n (ids n) part more P) as Z1. cbn [dump]. split; [lia|].
  intros K. assert (Dg : ((n < 10)%nat -> String.length (dump_int (Z.of_nat n)) = 1%nat)
                    /\ ((n < 100)%nat -> (String.length (dump_int (Z.of_nat n)) <= 2)%nat)).
  { clear. split; intros K.
    - do 10 (destruct n as [|n]; [reflexivity|]). lia.
    - do 100 (destruct n as [|n]; [vm_compute; lia|]). lia. }
  destruct Dg as [D1 D2]. destruct K as [K|[-> K]].
  - rewrite (D1 K) in Z1. lia.
  - specialize (D2 K). lia.
Qed.
Print Assumptions split_size_partial.

(** Parts are not smaller than they need to be: with the first entry of the following part, the message (written with
    number 0 and not to be continued) would exceed the limit. *)
Theorem split_greedy :
  forall r max ids l n part more x next more', nr_report_data r = Some l -> plain (ids n) ->
    nth_error (create_call_payloads r max ids) n = Some (report_part (nr_request_id r) (nr_generated_at r) n (ids n) part more) ->
    nth_error (create_call_payloads r max ids) (S n) =
      Some (report_part (nr_request_id r) (nr_generated_at r) (S n) (ids (S n)) (x :: next) more') ->
    (max < String.length (dump (report_part (nr_request_id r) (nr_generated_at r) 0 (ids n) (part ++ [x]) false)))%nat.
Proof.
  intros r max ids l n part more x next more' E P H H'. destruct (create_call_payloads_spec r max ids l E) as (parts & A & B & C & D & S).
  rewrite D, numbered_nth in H, H'. destruct (nth_error parts n) as [q|] eqn:Q; [|discriminate].
  destruct (nth_error parts (Datatypes.S n)) as [q'|] eqn:Q'; [|discriminate].
  injection H as H1 H2. subst q. injection H' as H3 H4. subst q'.
  destruct (S n part Q) as [_ S2]. cbn [Nat.add] in S2. specialize (S2 _ x next Q' eq_refl).
  pose proof (part_size r 0 (ids n) (part ++ [x]) false P) as Z1. change (String.length (dump_int (Z.of_nat 0))) with 1%nat in Z1. cbv iota in Z1. lia.
Qed.
Print Assumptions split_greedy.

(** What notify_report_req sends: also the report with at most one entry is complete. *)
Theorem report_complete :
  forall rid now data max ids,
    exists parts, parts <> [] /\ concat parts = data /\ (data <> [] -> Forall (fun p => p <> []) parts) /\
      notify_report_req rid now data max ids = numbered rid now ids 0 parts.
Proof.
  intros rid now data max ids. unfold notify_report_req. destruct (Nat.leb_spec (List.length data) 1) as [L|L].
  - exists [data]. split; [discriminate|]. split; [cbn; apply app_nil_r|]. split; [intros; constructor; auto|]. reflexivity.
  - set (req := {| nr_request_id := rid; nr_generated_at := now; nr_seq_no := 0; nr_report_data := Some data;
                   nr_tbc := Some false; nr_custom_data := None |}).
    apply (split_lossless req). reflexivity.
Qed.
Print Assumptions report_complete.

(** Five entries and a limit of 160 characters: three parts. *)
Definition example_request (l : list json) : notify_report :=
  {| nr_request_id := 42; nr_generated_at := "2024-01-01T00:00:00.000Z"; nr_seq_no := 0; nr_report_data := Some l;
     nr_tbc := None; nr_custom_data := None |}.
Definition entry (s : string) : json := JObj [("component", JStr s)].
Definition example_ids (n : nat) : string := "id" ++ dec (Z.of_nat n mod 10).

Example split_ex :
  let l := map entry ["aaaa"; "b"; "cccccccccccccccccccccccccccccccccccccccccccccccc"; "d"; "e"] in
  let r := example_request l in
  Forall wf l /\ plain (example_ids 0) /\
  create_call_payloads r 160 example_ids =
    [report_part 42 (nr_generated_at r) 0 "id0" (map entry ["aaaa"; "b"]) true;
     report_part 42 (nr_generated_at r) 1 "id1" (map entry ["cccccccccccccccccccccccccccccccccccccccccccccccc"]) true;
     report_part 42 (nr_generated_at r) 2 "id2" (map entry ["d"; "e"]) false] /\
  map (fun p => String.length (dump p)) (create_call_payloads r 160 example_ids) = [157; 183; 155]%nat.
Proof.
  cbv zeta. split; [|split; [vm_compute; reflexivity|split; vm_compute; reflexivity]].
  repeat (apply Forall_cons; [apply wf_obj; [exact I|apply Forall_cons; [apply wf_str|apply Forall_nil]]|]). apply Forall_nil.
Qed.

(** Without report data the request is passed on unchanged, whatever its size. *)
Theorem no_report_data :
  forall r max ids, nr_report_data r = None ->
    exists fields, create_call_payloads r max ids = [JArr [JInt 2; JStr (ids 0%nat); JStr "NotifyReport"; JObj fields]] /\
      obj_get "requestId" fields = Some (JInt (nr_request_id r)) /\
      obj_get "generatedAt" fields = Some (JStr (nr_generated_at r)) /\
      obj_get "seqNo" fields = Some (JInt (nr_seq_no r)) /\
      obj_get "tbc" fields = option_map JBool (nr_tbc r) /\
      obj_get "customData" fields = nr_custom_data r /\
      obj_get "reportData" fields = None.
Proof.
  intros r max ids E. unfold create_call_payloads. rewrite E. eexists. split; [reflexivity|].
  unfold report_to_json. rewrite E. destruct (nr_tbc r), (nr_custom_data r); repeat match goal with |- _ /\ _ => split end; reflexivity.
Qed.
Print Assumptions no_report_data.

(** The size limit is exceeded by a part with several entries if it is the last one and its number has two digits: the
    skeleton is measured with the number 0. *)
Theorem split_size_refuted :
  exists r max ids l n part, nr_report_data r = Some l /\ plain (ids n) /\ (2 <= List.length part)%nat /\
    nth_error (create_call_payloads r max ids) n = Some (report_part (nr_request_id r) (nr_generated_at r) n (ids n) part false) /\
    (max < String.length (dump (report_part (nr_request_id r) (nr_generated_at r) n (ids n) part false)))%nat.
Proof.
  exists (example_request (map entry (repeat "cccccccccccccccccccccccccccccccccccccccccccccccc" 10 ++ ["d"; "e"]))), 155%nat, example_ids.
  exists (map entry (repeat "cccccccccccccccccccccccccccccccccccccccccccccccc" 10 ++ ["d"; "e"])), 10%nat, (map entry ["d"; "e"]).
  split; [reflexivity|]. split; [vm_compute; reflexivity|]. split; [cbn; lia|]. split; [vm_compute; reflexivity|]. vm_compute. lia.
Qed.
Print Assumptions split_size_refuted.

(** Custom data of a request with report data does not reach the CSMS. *)
Theorem split_custom_data_lost_refuted :
  exists r max ids, nr_custom_data r = Some (JStr "vendor") /\
    forall p, In p (create_call_payloads r max ids) ->
      exists fields, p = JArr [JInt 2; JStr (ids 0%nat); JStr "NotifyReport"; JObj fields] /\ obj_get "customData" fields = None.
Proof.
  exists {| nr_request_id := 1; nr_generated_at := "t"; nr_seq_no := 0; nr_report_data := Some [JNull];
            nr_tbc := None; nr_custom_data := Some (JStr "vendor") |}, 1000%nat, (fun _ => "i").
  split; [reflexivity|]. intros p [<- | []]. eexists. split; [reflexivity|]. reflexivity.
Qed.
Print Assumptions split_custom_data_lost_refuted.
