(** C122: which log files rotation keeps, renames and deletes. C123: what messages make in the log. *)
From Coq Require Import ZArith String Ascii List Bool Lia.
From Verif Require Import StrModel LogModel LogSpec LogProofs LogProofs2 LogProofs3 LogProofs4.
Import ListNotations.
Open Scope string_scope.
Open Scope list_scope.
Open Scope Z_scope.

(* ---------------------------------------------------------------------------------------------------------- C122 *)

(** With one to eleven files and numbers as extensions, whatever order the directory is listed in: the files of the log
    hold exactly the last parts of what was written, the newest in the file itself, the others with 0, 1, ...; there is no
    other file of the log, and the other files of the directory are as they were. *)
Theorem C122_kept : forall c d0 h d, dated c = false -> 1 <= max_count c <= 11 -> happened c d0 h d ->
  forall x, d x = shelf (firstn (Z.to_nat (max_count c)) (book c h)) d0 x.
Proof. intros c d0 h d D N H. exact (happened_shelf c d0 D N h d H). Qed.
Print Assumptions C122_kept.

(** What the caller is told: rotated iff the newest part was full, with deletion iff there were as many parts as allowed. *)
Theorem C122_status : forall c d0 h d o, dated c = false -> 1 <= max_count c <= 11 -> happened c d0 h d -> sees o d -> o <> Stop ->
  snd (step c d o) =
  match book c h with
  | l :: _ => if full c l then if max_count c <=? Z.of_nat (List.length (book c h)) then RotatedWithDeletion else Rotated else NotRotated
  | [] => NotRotated
  end.
Proof.
  intros c d0 h d o D N H V O. destruct (step_shelf c d0 D N h d o (happened_shelf c d0 D N h d H) V) as [_ E].
  rewrite E. destruct o; [| |congruence]; unfold outcome; destruct (book c h) as [|l r]; try reflexivity; destruct (full c l); try reflexivity;
    destruct (Nat.leb_spec (Z.to_nat (max_count c)) (List.length (l :: r))), (Z.leb_spec (max_count c) (Z.of_nat (List.length (l :: r)))); try reflexivity; lia.
Qed.
Print Assumptions C122_status.

(** Nothing that was written is lost while there are not more parts than files allowed. *)
Theorem C122_nothing_lost : forall c d0 h1 h2 d now ls x, dated c = false -> 1 <= max_count c <= 11 ->
  happened c d0 (h1 ++ Write now ls x :: h2) d -> (exists now ls, In (Start now ls) h2) ->
  Z.of_nat (List.length (book c (h1 ++ Write now ls x :: h2))) <= max_count c -> kept d x.
Proof.
  intros c d0 h1 h2 d now ls x D N H S L. pose proof (book_has c h1 h2 now ls x S) as I.
  apply in_concat in I as (l & I & J). apply In_nth_error in I as (i & I).
  assert (Hi : (i < List.length (book c (h1 ++ Write now ls x :: h2)))%nat) by (apply nth_error_Some; congruence).
  exists (nm i), l. split; [|exact J]. rewrite (C122_kept c d0 _ d D N H), shelf_nm by lia.
  rewrite firstn_all2 by lia. exact I.
Qed.
Print Assumptions C122_nothing_lost.

(** Without rotation all is in the one file, and no other file changes. *)
Theorem C122_no_rotation : forall c d0 h d, rotates c = false \/ max_size c <= 0 -> happened c d0 h d ->
  (List.length (book c h) <= 1)%nat /\ d Base = nth_error (book c h) 0 /\ forall x, x <> Base -> d x = d0 x.
Proof. intros c d0 h d. apply off_book. Qed.
Print Assumptions C122_no_rotation.

(** With dates as extensions and while there are fewer files than allowed: the full file gets the date, a new one begins
    with the line, and all other files stay. *)
Theorem C122_dated : forall c d now ls x l, dated c = true -> d Base = Some l -> lists ls d -> full c l = true ->
  (max_count c <= 0 \/ Z.of_nat (List.length (filter belongs ls)) < max_count c) ->
  let r := step c d (Write now ls x) in
  fst r Base = Some (tags (opening c) ++ [x]) /\ fst r (Ext now) = Some (l ++ tags (closing c)) /\
  (forall y, y <> Base -> y <> Ext now -> fst r y = d y) /\ snd r = Rotated.
Proof.
  intros c d now ls x l D B L F M. unfold full in F. apply andb_true_iff in F as [F F3]. apply andb_true_iff in F as [F1 F2].
  cbn zeta. cbn [step]. unfold rotate_log_if_needed. rewrite F1. cbn [negb].
  apply Z.ltb_lt in F2. destruct (Z.leb_spec (max_size c) 0); [lia|].
  unfold safe_file_size. rewrite B, size_weight, F3.
  set (d1 := append_opt d (closing c)). assert (B1 : d1 Base = Some (l ++ tags (closing c))) by now apply append_opt_base.
  assert (L1 : lists ls d1).
  { destruct L as [N L]. split; [exact N|]. intros y. rewrite L. destruct (name_eqb_spec y Base) as [->|Y].
    - rewrite B1, B. split; discriminate.
    - unfold d1. now rewrite append_opt_else. }
  rewrite (dated_rotate c now ls d1 _ D B1 L1 M). cbn [fst snd].
  set (d2 := rename d1 Base (Ext now)).
  assert (E2 : open_app d2 Base = Some []).
  { rewrite open_base. unfold d2. now rewrite rename_from by discriminate. }
  pose proof (append_opt_base _ _ (opening c) E2) as E3. cbn [app] in E3.
  split; [now apply append_base|]. split; [|split; [|reflexivity]].
  - rewrite append_else, append_opt_else, open_else by discriminate. unfold d2. now rewrite rename_to by discriminate.
  - intros y Y1 Y2. rewrite append_else, append_opt_else, open_else by exact Y1.
    unfold d2. rewrite rename_else by assumption. unfold d1. now apply append_opt_else.
Qed.
Print Assumptions C122_dated.

(** Lines of ten bytes each, files of ten bytes: every line begins a new file. *)
Definition ten (n : Z) : line := L n 10.
Definition plain (count : Z) (d : bool) : cfg := C true d 10 count None None false.
Definition writes (n : nat) : list act := AStart "d0" :: List.map (fun i => AWrite "d" (ten (Z.of_nat i))) (seq 1 n).

(** The hypotheses of C122_kept, C122_status and C122_nothing_lost are met: three files, five lines. *)
Example C122_case : exists h d, happened (plain 3 false) (fun _ => None) h d /\
  book (plain 3 false) h = [[ten 5]; [ten 4]; [ten 3]; [ten 2]; [ten 1]] /\
  d Base = Some [ten 5] /\ d (Ext "0") = Some [ten 4] /\ d (Ext "1") = Some [ten 3] /\ d (Ext "2") = None.
Proof.
  exists (snd (play (plain 3 false) (writes 5))), (fst (fst (play (plain 3 false) (writes 5)))). split.
  - apply play_happened.
  - split; [vm_compute; reflexivity|]. split; [vm_compute; reflexivity|]. split; [vm_compute; reflexivity|]. split; vm_compute; reflexivity.
Qed.
(** A HTML log of two parts. *)
Example C122_html_case :
  let c := C true false 10 2 (Some (L 100 3)) (Some (L 200 2)) true in
  let s := play c [AStart ""; AWrite "" (ten 1); AWrite "" (ten 2); AStop] in
  happened c (fun _ => None) (snd s) (fst (fst s)) /\
  fst (fst s) Base = Some [L 100 3; ten 2; L 200 2] /\ fst (fst s) (Ext "0") = Some [L 100 3; ten 1; L 200 2].
Proof.
  intros c s. split; [apply play_happened|]. split; vm_compute; reflexivity.
Qed.

(** Without a maximum number of files nothing should ever be deleted, but the thirteenth part makes the oldest one
    disappear: "9" sorts after "10", is renamed first and overwrites it. *)
Theorem C122_unlimited_refuted : exists c h d now ls x, max_count c = 0 /\ dated c = false /\
  happened c (fun _ => None) h d /\ In (Write now ls x) h /\ ~ kept d x.
Proof.
  set (c := plain 0 false). set (s := play c (writes 13)).
  exists c, (snd s), (fst (fst s)), "d", [Base], (ten 1).
  split; [reflexivity|]. split; [reflexivity|]. split.
  - apply play_happened.
  - split; [|apply lost_spec; vm_compute; reflexivity].
    subst s c. replace (snd (play (plain 0 false) (writes 13))) with (rev (rev (snd (play (plain 0 false) (writes 13))))) by apply rev_involutive.
    apply -> in_rev. eapply (nth_error_In _ 1). vm_compute. reflexivity.
Qed.
Print Assumptions C122_unlimited_refuted.

(** With twelve files the oldest is kept and the one after it deleted. *)
Theorem C122_twelve_refuted : exists c h d old new, max_count c = 12 /\ dated c = false /\ happened c (fun _ => None) h d /\
  (exists l, last (book c h) [] = [old] /\ nth_error (rev (book c h)) 1 = Some [new] /\ d (Ext "11") = Some l /\ In old l) /\ ~ kept d new.
Proof.
  set (c := plain 12 false). set (s := play c (writes 13)).
  exists c, (snd s), (fst (fst s)), (ten 1), (ten 2).
  split; [reflexivity|]. split; [reflexivity|]. split.
  - apply play_happened.
  - split; [|apply lost_spec; vm_compute; reflexivity].
    exists [ten 1]. split; [vm_compute; reflexivity|]. split; [vm_compute; reflexivity|]. split; [vm_compute; reflexivity|now left].
Qed.
Print Assumptions C122_twelve_refuted.

(** With dates as extensions it is the newest of the old files that is deleted, the oldest stays. *)
Theorem C122_dated_refuted : exists c h d, max_count c = 3 /\ dated c = true /\ happened c (fun _ => None) h d /\
  book c h = [[ten 4]; [ten 3]; [ten 2]; [ten 1]] /\
  d (Ext "20260101000000") = Some [ten 1] /\ ~ kept d (ten 2).
Proof.
  set (c := plain 3 true).
  set (l := [AStart "20260101000000"; AWrite "20260101000000" (ten 1); AWrite "20260101000000" (ten 2);
             AWrite "20260102000000" (ten 3); AWrite "20260103000000" (ten 4)]).
  set (s := play c l).
  exists c, (snd s), (fst (fst s)). split; [reflexivity|]. split; [reflexivity|]. split.
  - apply play_happened.
  - split; [vm_compute; reflexivity|]. split; [vm_compute; reflexivity|]. apply lost_spec. vm_compute. reflexivity.
Qed.
Print Assumptions C122_dated_refuted.

(** Two rotations within a second: the second one replaces the file of the first although nothing is to be deleted. *)
Theorem C122_second_refuted : exists c h d, max_count c = 0 /\ dated c = true /\ happened c (fun _ => None) h d /\
  book c h = [[ten 3]; [ten 2]; [ten 1]] /\ ~ kept d (ten 1).
Proof.
  set (c := plain 0 true). set (s := play c (writes 3)).
  exists c, (snd s), (fst (fst s)). split; [reflexivity|]. split; [reflexivity|]. split.
  - apply play_happened.
  - split; [vm_compute; reflexivity|]. apply lost_spec. vm_compute. reflexivity.
Qed.
Print Assumptions C122_second_refuted.

(** A copy of the log that somebody called "log.bak" counts as the oldest file and is deleted. *)
Theorem C122_foreign_refuted : exists c d now ls x, max_count c = 2 /\ dated c = false /\ lists ls d /\
  d (Ext "bak") = Some [ten 7] /\ fst (step c d (Write now ls x)) (Ext "bak") = None.
Proof.
  exists (plain 2 false), (fun n => match n with Base => Some [ten 1] | Ext s => if String.eqb s "bak" then Some [ten 7] else None | _ => None end),
    "", [Ext "bak"; Base], (ten 2).
  split; [reflexivity|]. split; [reflexivity|]. split; [|split; vm_compute; reflexivity].
  split.
  - constructor; [intros [H|[]]; discriminate|]. constructor; [intros []|constructor].
  - intros [|s|k]; cbn [In].
    + split; [discriminate|auto].
    + destruct (String.eqb_spec s "bak") as [->|N]; [split; [discriminate|now left]|].
      split; [intros [H|[H|[]]]; congruence|congruence].
    + split; [intros [H|[H|[]]]; discriminate|congruence].
Qed.
Print Assumptions C122_foreign_refuted.

(** A HTML log that is opened again goes on behind its closing tags. *)
Theorem C122_reopened_refuted : exists c h d l1 l2 close x, closing c = Some close /\ happened c (fun _ => None) h d /\
  d Base = Some (l1 ++ close :: x :: l2) /\ x <> close.
Proof.
  set (c := C true false 1000 2 (Some (L 100 3)) (Some (L 200 2)) true).
  set (l := [AStart ""; AStop; AStart ""; AWrite "" (ten 1)]). set (s := play c l).
  exists c, (snd s), (fst (fst s)), [L 100 3], [], (L 200 2), (ten 1). split; [reflexivity|]. split.
  - apply play_happened.
  - split; [vm_compute; reflexivity|discriminate].
Qed.
Print Assumptions C122_reopened_refuted.

(** Dates below the maximum: the hypotheses of C122_dated are met. *)
Example C122_dated_case : let d : dir := fun n => match n with Base => Some [ten 1] | _ => None end in
  let r := step (plain 3 true) d (Write "20260101000000" [Base] (ten 2)) in
  lists [Base] d /\ full (plain 3 true) [ten 1] = true /\
  fst r Base = Some [ten 2] /\ fst r (Ext "20260101000000") = Some [ten 1] /\ snd r = Rotated.
Proof.
  split.
  - split; [constructor; [intros []|constructor]|]. intros [|s|k]; cbn [In]; split; try discriminate; try (intros [H|[]]; discriminate); try congruence; now left.
  - split; [reflexivity|]. split; [reflexivity|]. split; reflexivity.
Qed.
(** Without rotation. *)
Example C122_no_rotation_case : let s := play (C false false 10 2 None None false) (writes 3) in
  happened (C false false 10 2 None None false) (fun _ => None) (snd s) (fst (fst s)) /\ fst (fst s) Base = Some [ten 1; ten 2; ten 3].
Proof.
  intros s. split; [apply play_happened|vm_compute; reflexivity].
Qed.

(* ---------------------------------------------------------------------------------------------------------- C123 *)

(** The log has one line for each message, in their order, with its sender, text and type: of a CALL its action, of a
    CALLRESULT the action of the last CALL with this id that had no answer yet, and "Response". *)
Theorem C123_messages : forall raw ses l, filter from_peer (lines (own (log_run raw ses l))) = expected (rev l).
Proof. intros raw ses l. apply own_inv. Qed.
Print Assumptions C123_messages.

(** The log of a session has these lines for the messages since the session began, and no other. *)
Theorem C123_session : forall raw l1 id l2, Forall (fun o => ~ about id o) l2 ->
  exists g, find (fun p => String.eqb (fst p) id) (sessions (log_run raw true (l1 ++ StartSession id :: l2))) = Some (id, g) /\
            lines g = started :: expected (rev l2) /\ raws g = [].
Proof. intros raw l1 id l2 F. destruct (session_inv raw l1 id l2 F) as (g & A & B & C & _). now exists g. Qed.
Print Assumptions C123_session.

(** After the session was stopped there is no log of it. *)
Theorem C123_stopped : forall raw l1 id l2, Forall (fun o => ~ about id o) l2 ->
  find (fun p => String.eqb (fst p) id) (sessions (log_run raw true (l1 ++ StopSession id :: l2))) = None.
Proof. exact stopped_inv. Qed.
Print Assumptions C123_stopped.

(** The application hears each message once, unchanged and with its direction. *)
Theorem C123_heard : forall raw ses l, heard (log_run raw ses l) = received l.
Proof. exact heard_inv. Qed.
Print Assumptions C123_heard.

(** Without sessions each system message is in the log once, and each raw message once in the raw log if there is one. *)
Theorem C123_system : forall raw ses l, ses = false \/ (forall id, ~ In (StartSession id) l) ->
  filter from_system (lines (own (log_run raw ses l))) = started :: sys_lines l /\
  raws (own (log_run raw ses l)) = if raw then raw_lines l else [].
Proof. exact alone_inv. Qed.
Print Assumptions C123_system.

(** The lookup map holds an entry for every id ever seen, also of calls that were answered. *)
Theorem C123_growth : forall raw ses l id, In id (List.map fst (map (own (log_run raw ses l)))) <-> seen l id.
Proof. exact growth_inv. Qed.
Print Assumptions C123_growth.

(** The text of a message adds no markup to its row of the HTML log: the row has 18 tags besides what time and type hold. *)
Theorem C123_markup : forall a ts e, a = "<"%char \/ a = ">"%char ->
  occurrences a (html_row ts e) = (18 + occurrences a ts + occurrences a (kind e))%nat.
Proof. exact row_clean. Qed.
Print Assumptions C123_markup.

Definition ask : message := M "[2,1,BootNotification]" (Call "1" "BootNotification").
Definition answer : message := M "[3,1]" (Result "1").

Example C123_case : lines (own (log_run true true [Message true "x" ask; StartSession "s"; Message false "y" answer; Message false "y" answer])) =
  [started; E ChargePoint "BootNotification" "[2,1,BootNotification]" true; E CentralSystem "BootNotificationResponse" "[3,1]" true;
   E CentralSystem "" "[3,1]" true].
Proof. reflexivity. Qed.
(** The hypotheses of C123_session and C123_stopped are met; the session that began after the CALL does not know its type. *)
Example C123_session_case : Forall (fun o => ~ about "s" o) [Message false "y" answer; StartSession "t"; Sys "z"] /\
  find (fun p => String.eqb (fst p) "s") (sessions (log_run false true ([Message true "x" ask] ++ StartSession "s" :: [Message false "y" answer; StartSession "t"; Sys "z"])))
  = Some ("s", G [started; E CentralSystem "" "[3,1]" true] [] [("1", "")]).
Proof. split; [|reflexivity]. repeat constructor; intros [H|H]; discriminate. Qed.
Example C123_system_case : let s := log_run true false [Sys "a"; Raw "b" CentralSystem; Message true "x" ask] in
  filter from_system (lines (own s)) = [started; E System "a" "" false] /\ raws (own s) = [E CentralSystem "b" "" false].
Proof. split; reflexivity. Qed.

(** While a session is logged a system message comes twice in the log of the station and not in that of the session; so
    does a raw message, the second time as the text instead of the type. *)
Theorem C123_system_refuted : exists l g, sessions (log_run true true l) = [("s", g)] /\
  In (Sys "a") l /\ In (Raw "b" CentralSystem) l /\
  lines (own (log_run true true l)) = [started; E System "a" "" false; E System "a" "" false] /\
  raws (own (log_run true true l)) = [E CentralSystem "b" "" false; E CentralSystem "" "b" false] /\
  lines g = [started] /\ raws g = [].
Proof.
  exists [StartSession "s"; Sys "a"; Raw "b" CentralSystem], fresh. split; [reflexivity|].
  split; [right; now left|]. split; [right; right; now left|]. split; [reflexivity|]. split; [reflexivity|]. split; reflexivity.
Qed.
Print Assumptions C123_system_refuted.

(** The action of a CALL goes to the HTML log as it is: a peer can put markup there. *)
Theorem C123_markup_refuted : exists l e, lines (own (log_run false false l)) = [started; e] /\
  occurrences "<" (html_row "" e) = 20%nat.
Proof.
  exists [Message false "" (M "" (Call "1" "<script>alert(1)</script>"))], (E CentralSystem "<script>alert(1)</script>" "" true).
  split; reflexivity.
Qed.
Print Assumptions C123_markup_refuted.

(** Two texts with the same row: the ampersand is not encoded. *)
Theorem C123_encode_refuted : exists e f ts, said e <> said f /\ html_row ts e = html_row ts f.
Proof. exists (E ChargePoint "" "<" true), (E ChargePoint "" "&lt;" true), "". split; [discriminate|reflexivity]. Qed.
Print Assumptions C123_encode_refuted.
