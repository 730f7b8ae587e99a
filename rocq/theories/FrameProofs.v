(** Lemmas about frames and split reports. *)
From Coq Require Import ZArith String Ascii List Bool Lia.
From Verif Require Import StrModel StrSpec StrProofs JsonModel JsonProofs FrameModel FrameSpec.
Import ListNotations.
Local Open Scope string_scope.
Local Open Scope Z_scope.

(** * Frames *)

Definition to_json (f : frame) : json :=
  match f with
  | Call i a p => call_to_json i a p
  | CallResult i p => callresult_to_json i p
  | CallError i c d x => callerror_to_json i c d x
  end.

Lemma dump_frame f : dump (to_json f) = wire f.
Proof. destruct f; cbn; repeat (rewrite ?app_assoc_s; cbn [append]); reflexivity. Qed.

Lemma wf_frame f : wf (frame_payload f) -> wf (to_json f).
Proof.
  destruct f; cbn; intros W; apply wf_arr; repeat (apply Forall_cons; [first [exact W|apply wf_str|apply wf_int; reflexivity]|]);
    apply Forall_nil.
Qed.

Lemma id_ok s : (String.length s <= 36)%nat <-> message_id s = Ret s.
Proof.
  unfold message_id, ci_make, str_set. destruct (Nat.ltb_spec 36 (String.length s)).
  - split; [lia|discriminate].
  - split; auto.
Qed.

Lemma id_bad s : (36 < String.length s)%nat -> exists w, message_id s = Throws w.
Proof.
  intros H. unfold message_id, ci_make, str_set. destruct (Nat.ltb_spec 36 (String.length s)); [eauto|lia].
Qed.

Lemma id_ret s x : message_id s = Ret x <-> x = s /\ (String.length s <= 36)%nat.
Proof.
  destruct (Nat.le_gt_cases (String.length s) 36) as [L|L].
  - pose proof (proj1 (id_ok s) L) as E. rewrite E. split; [intros H; injection H; auto|intros [-> _]; auto].
  - destruct (id_bad s L) as [w ->]. split; [discriminate|lia].
Qed.

(** * Splitting *)

Local Open Scope nat_scope.

Definition cost (l : list json) : nat := list_sum (map (fun x => S (String.length (dump x))) l).

Lemma cost_app a b : cost (a ++ b) = cost a + cost b.
Proof. unfold cost. rewrite map_app, list_sum_app. reflexivity. Qed.

Lemma arr_length x l : String.length (dump (JArr (x :: l))) = 2 + String.length (dump x) + cost l.
Proof.
  cbn [dump]. rewrite !app_length_s. change (String.length "[") with 1. change (String.length "]") with 1.
  enough (String.length (String.concat "," (map dump (x :: l))) = String.length (dump x) + cost l) by lia.
  revert x. induction l as [|y l IH]; intros x.
  - cbn. lia.
  - change (String.concat "," (map dump (x :: y :: l))) with (dump x ++ "," ++ String.concat "," (map dump (y :: l))).
    rewrite !app_length_s, IH. unfold cost. cbn [map]. unfold list_sum. cbn [fold_right]. change (String.length ",") with 1. lia.
Qed.

Lemma take_entries_spec rem : forall l size t r, take_entries size rem l = (t, r) ->
  l = (t ++ r)%list /\ (t <> [] -> size + cost t <= rem) /\
  (forall x r', r = x :: r' -> rem < size + cost t + S (String.length (dump x))).
Proof.
  induction l as [|x l IH]; intros size t r H; cbn [take_entries] in H.
  - injection H as <- <-. repeat split; try congruence.
  - destruct (Nat.leb_spec (size + (String.length (dump x) + 1)) rem) as [L|L].
    + destruct (take_entries (size + (String.length (dump x) + 1)) rem l) as [t1 r1] eqn:E.
      injection H as <- <-. destruct (IH _ _ _ E) as (A & B & C). subst l.
      assert (cost (x :: t1) = S (String.length (dump x)) + cost t1) by reflexivity.
      repeat split.
      * intros _. destruct t1 as [|y t1]; [cbn in *; lia|]. specialize (B ltac:(discriminate)). lia.
      * intros y r' ->. specialize (C y r' eq_refl). lia.
    + injection H as <- <-. repeat split; try congruence. intros y r' E. injection E as <- <-. cbn. lia.
Qed.

(** The next part: what it holds, the room it keeps to, and that the next entry would not fit. *)
Lemma next_report_data_spec rem l t r : next_report_data rem l = (t, r) ->
  l = (t ++ r)%list /\ (l <> [] -> t <> []) /\
  (2 <= List.length t -> String.length (dump (JArr t)) <= rem) /\
  (forall x r', r = x :: r' -> rem < String.length (dump (JArr (t ++ [x])))).
Proof.
  unfold next_report_data. destruct l as [|x [|y l]].
  - intros H. injection H as <- <-. cbn. repeat split; try congruence; lia.
  - intros H. injection H as <- <-. cbn. repeat split; try congruence; lia.
  - destruct (take_entries (String.length (dump (JArr [x]))) rem (y :: l)) as [t1 r1] eqn:E.
    intros H. injection H as <- <-. destruct (take_entries_spec _ _ _ _ _ E) as (A & B & C).
    assert (X : String.length (dump (JArr [x])) = 2 + String.length (dump x)) by (rewrite arr_length; cbn; lia).
    rewrite X in *. split; [cbn; congruence|]. split; [discriminate|]. split.
    + intros L. rewrite arr_length. apply B. destruct t1; [cbn in L; lia|discriminate].
    + intros z r' ->. rewrite <- app_comm_cons, arr_length, cost_app. specialize (C z r' eq_refl). unfold cost at 2. cbn. lia.
Qed.

(** Sizes of a part. *)
Lemma dec_length_1 : String.length (dump_int 0) = 1.
Proof. reflexivity. Qed.

Lemma plain_length s : plain s -> String.length (dump_str s) = 2 + String.length s.
Proof. unfold plain. cbn [dump]. intros ->. cbn [String.length]. rewrite app_length_s. cbn. lia. Qed.

Definition base (r : notify_report) (id : string) : nat := skeleton_size r + String.length id.

Lemma part_size r n id part more : plain id ->
  String.length (dump (report_part (nr_request_id r) (nr_generated_at r) n id part more)) + (if more then 1 else 0) =
  base r id + String.length (dump (JArr part)) + (String.length (dump_int (Z.of_nat n)) - 1).
Proof.
  intros P. apply plain_length in P.
  assert (D : 1 <= String.length (dump_int (Z.of_nat n))).
  { destruct (dump_int_first (Z.of_nat n)) as (c & s & -> & _). cbn. lia. }
  unfold base, skeleton_size, template, report_to_json, report_part. cbn [nr_request_id nr_generated_at nr_seq_no nr_report_data nr_tbc nr_custom_data option_map].
  set (T := obj_set_opt "customData" _ _).
  assert (ET : T = [("generatedAt", JStr (nr_generated_at r)); ("requestId", JInt (nr_request_id r)); ("seqNo", JInt 0); ("tbc", JBool false)])
    by reflexivity.
  rewrite ET. clear T ET.
  set (arr := JArr part). set (at_ := nr_generated_at r). set (rid := nr_request_id r).
  cbn [dump map String.concat fst snd]. fold arr.
  assert (EA : dump arr = dump (JArr part)) by reflexivity.
  assert (EM : String.length (if more then "true" else "false") = if more then 4 else 5) by (destruct more; reflexivity).
  rewrite !app_length_s, P, EM, dec_length_1.
  change (String.length (dump_str "generatedAt")) with 13. change (String.length (dump_str "reportData")) with 12.
  change (String.length (dump_str "requestId")) with 11. change (String.length (dump_str "seqNo")) with 7.
  change (String.length (dump_str "tbc")) with 5. change (String.length (dump_str message_type)) with 14.
  change (String.length (dump_str "NotifyReport")) with 14. change (String.length (dump_str "")) with 2.
  change (String.length (dump_int 2)) with 1. cbn [String.length].
  destruct more; lia.
Qed.

(** The message of a part. *)
Lemma next_payload_spec r max n id l p rest : next_payload r max (Z.of_nat n) id l = (p, rest) ->
  exists part, l = (part ++ rest)%list /\ (l <> [] -> part <> []) /\
    p = report_part (nr_request_id r) (nr_generated_at r) n id part (match rest with [] => false | _ => true end) /\
    (2 <= List.length part -> base r id + String.length (dump (JArr part)) <= max) /\
    (forall x rest', rest = x :: rest' -> max < base r id + String.length (dump (JArr (part ++ [x])))).
Proof.
  unfold next_payload. fold (base r id). set (rem := if Nat.leb (base r id) max then max - base r id else 0).
  destruct (next_report_data rem l) as [part rest1] eqn:E. intros H.
  destruct (next_report_data_spec _ _ _ _ E) as (A & B & C & D).
  injection H as <- <-. exists part. split; [exact A|]. split; [exact B|]. split; [reflexivity|]. split.
  - intros L. specialize (C L). unfold rem in C. destruct (Nat.leb_spec (base r id) max); [lia|].
    destruct part as [|x part]; [cbn in L; lia|]. rewrite arr_length in C. lia.
  - intros x rest' R. specialize (D x rest' R). unfold rem in D. destruct (Nat.leb_spec (base r id) max); lia.
Qed.

Definition sizes_ok (r : notify_report) (max : nat) (ids : nat -> string) (n : nat) (parts : list (list json)) : Prop :=
  forall i part, nth_error parts i = Some part ->
    (2 <= List.length part -> base r (ids (n + i)) + String.length (dump (JArr part)) <= max) /\
    (forall next x next', nth_error parts (S i) = Some next -> next = x :: next' ->
       max < base r (ids (n + i)) + String.length (dump (JArr (part ++ [x])))).

Lemma payload_loop_spec r max ids : forall fuel n l, List.length l < fuel -> (n = 0 \/ l <> []) ->
  exists parts, parts <> [] /\ concat parts = l /\ (l <> [] -> Forall (fun p => p <> []) parts) /\
    payload_loop fuel r max ids n l = numbered (nr_request_id r) (nr_generated_at r) ids n parts /\
    sizes_ok r max ids n parts.
Proof.
  induction fuel as [|fuel IH]; intros n l F N; [lia|].
  assert (E : payload_loop (S fuel) r max ids n l =
    let (p, rest) := next_payload r max (Z.of_nat n) (ids n) l in p :: payload_loop fuel r max ids (S n) rest).
  { cbn [payload_loop]. destruct n; [reflexivity|]. destruct l; [|reflexivity]. destruct N; congruence. }
  rewrite E. clear E. destruct (next_payload r max (Z.of_nat n) (ids n) l) as [p rest] eqn:E.
  destruct (next_payload_spec _ _ _ _ _ _ _ E) as (part & A & B & -> & C & D).
  destruct rest as [|x rest].
  - rewrite app_nil_r in A. subst part. exists [l]. split; [discriminate|]. split; [cbn; apply app_nil_r|].
    split; [intros NE; constructor; auto|]. split.
    + cbn [numbered]. f_equal. destruct fuel; reflexivity.
    + intros i q Q. destruct i as [|i]; [|destruct i; discriminate]. injection Q as <-. rewrite Nat.add_0_r.
      split; [exact C|]. intros next y next' H. discriminate.
  - assert (NE : l <> []) by (rewrite A; destruct part; discriminate). specialize (B NE).
    assert (L : List.length (x :: rest) < fuel).
    { rewrite A, app_length in F. destruct part; [congruence|]. cbn [List.length] in *. lia. }
    destruct (IH (S n) (x :: rest) L ltac:(right; discriminate)) as (parts & P1 & P2 & P3 & P4 & P5).
    exists (part :: parts). split; [discriminate|]. split; [cbn; rewrite P2; auto|].
    split; [intros _; constructor; auto; apply P3; discriminate|]. split.
    + cbn [numbered]. rewrite P4. destruct parts; [congruence|reflexivity].
    + intros i q Q. destruct i as [|i].
      * injection Q as <-. rewrite Nat.add_0_r. split; [exact C|]. intros next y next' H1 H2.
        cbn [nth_error] in H1. apply (D y rest). f_equal.
        destruct parts as [|q0 parts]; [congruence|]. cbn in H1. injection H1 as ->. subst next. cbn in P2. congruence.
      * cbn [nth_error] in Q. replace (n + S i) with (S n + i) by lia. specialize (P5 i q Q). exact P5.
Qed.

Lemma create_call_payloads_spec r max ids l : nr_report_data r = Some l ->
  exists parts, parts <> [] /\ concat parts = l /\ (l <> [] -> Forall (fun p => p <> []) parts) /\
    create_call_payloads r max ids = numbered (nr_request_id r) (nr_generated_at r) ids 0 parts /\
    sizes_ok r max ids 0 parts.
Proof.
  intros E. unfold create_call_payloads. rewrite E. apply payload_loop_spec; auto.
Qed.

Lemma numbered_nth rid at_ ids : forall parts n i,
  nth_error (numbered rid at_ ids n parts) i =
  match nth_error parts i with
  | Some p => Some (report_part rid at_ (n + i) (ids (n + i)) p (match nth_error parts (S i) with Some _ => true | None => false end))
  | None => None
  end.
Proof.
  induction parts as [|p parts IH]; intros n i; [destruct i; reflexivity|].
  destruct i as [|i]; cbn [numbered nth_error].
  - rewrite Nat.add_0_r. destruct parts; reflexivity.
  - rewrite IH. replace (S n + i) with (n + S i) by lia. reflexivity.
Qed.

Lemma numbered_length rid at_ ids parts : forall n, List.length (numbered rid at_ ids n parts) = List.length parts.
Proof. induction parts; intros; cbn; auto. Qed.

Lemma report_part_inj rid at_ n id p m rid' at' n' id' p' m' :
  report_part rid at_ n id p m = report_part rid' at' n' id' p' m' -> p = p' /\ m = m' /\ id = id'.
Proof. unfold report_part. intros H. inversion H. auto. Qed.

Lemma wf_part rid at_ n id p m : int64_ok rid = true -> int64_ok (Z.of_nat n) = true -> Forall wf p ->
  wf (report_part rid at_ n id p m).
Proof.
  intros R N F. unfold report_part. apply wf_arr. repeat (apply Forall_cons; [try solve [apply wf_str|apply wf_int; reflexivity]|]); [|apply Forall_nil].
  apply wf_obj.
  - cbn. repeat split; reflexivity.
  - repeat (apply Forall_cons; [cbn [snd]; try solve [apply wf_str|apply wf_int; assumption|apply wf_bool|apply wf_arr; assumption]|]). apply Forall_nil.
Qed.
