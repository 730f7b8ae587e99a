(** Customer information, monitoring reports, display messages and costs of an OCPP 2.x station: theorems. *)
From Coq Require Import String Ascii ZArith QArith Qround List Bool Lia.
From Verif Require Import StrModel StrSpec BlkModel BlkSpec BlkProofs.
Import ListNotations.
Local Open Scope string_scope.
Local Open Scope list_scope.
Local Open Scope Z_scope.

(** ** C108 *)
(** The request is accepted exactly if it asks for something and says about whom. *)
Theorem C108_answer : forall e h r c, exists l,
  snd (handle_info e h r c) = IAnswer (if match i_cert r, i_token r, i_ident r with None, None, None => true | _, _, _ => false end then IInvalid else if i_report r || i_clear r then IAccepted else IRejected) :: l
  /\ ((named r /\ (i_report r = true \/ i_clear r = true)) \/ (l = [] /\ fst (handle_info e h r c) = c)).
Proof.
  intros e h r c. unfold handle_info, named. destruct (i_report r), (i_clear r); cbn [negb andb orb];
  (destruct (i_cert r) as [a | ]; [ | destruct (i_token r) as [b | ] eqn:T; [ | destruct (i_ident r) as [d | ] ] ]); cbn [fst snd];
  repeat match goal with |- context [let '(_, _) := ?x in _] => destruct x eqn:?; cbn [fst snd] end;
  eexists; (split; [ reflexivity | ]); try (right; split; reflexivity); left; (split; [ | auto ]); first [ left; discriminate | right; left; congruence | right; right; discriminate | right; left; discriminate ].
Qed.
(** What the CSMS is sent for an accepted request: the answer, and then, in parts of 512 characters that are numbered and of
    which all but the last announce another one, what the application and the cache know of the customer, shortened to
    MaxCustomerInformationDataLength. *)
Theorem C108_report : forall e h r c m text cut parts, named r -> (i_report r = true \/ i_clear r = true) ->
  m = match n_max e with Some m => m | None => 51200 end -> 0 <= m -> n_read_fails e = false ->
  (i_report r = false -> text = "") ->
  (i_report r = true -> exists known, text = (match n_told e with Some s => s | None => "" end ++ known)%string
     /\ match i_token r with
        | Some t => (exists entry, cached (h t) c entry /\ known = ("Hashed id_token stored in cache: " ++ h t ++ nl ++ "IdTokenInfo: " ++ entry)%string) \/ ((forall x, ~ In (h t, x) c) /\ known = "")
        | None => known = ""
        end) ->
  shortened m text cut -> split_from (i_id r) 0 cut parts ->
  snd (handle_info e h r c) = IAnswer IAccepted :: (if i_clear r && n_clear e then [IClear] else []) ++ parts.
Proof.
  intros e h r c m text cut parts N A M P RF T0 T1 S D.
  assert (G : (if i_report r then get_info e h r c else "") = text).
  { destruct (i_report r); [ | symmetry; now apply T0 ]. destruct (T1 eq_refl) as (known & -> & K). unfold get_info. f_equal. rewrite RF. destruct (i_token r) as [t | ]; [ | now subst ].
    destruct K as [ (entry & C & ->) | (C & ->) ]. - now rewrite (cached_lookup _ _ _ C). - assert (L := lookup_cached (h t) c). destruct (lookup (h t) c) as [x | ]; auto. destruct L as (c1 & c2 & -> & _). exfalso. apply (C x). apply in_or_app. right. now left. }
  unfold handle_info. rewrite G. change default_max with 51200. rewrite <- M.
  rewrite (shortened_unique m text (crop m text) cut (crop_shortened m text P) S). rewrite (split_unique _ _ _ _ _ (notify_info_split cut (i_id r)) D).
  unfold named in N. destruct (i_report r), (i_clear r); cbn [negb andb]; try (destruct A; discriminate);
  (destruct (i_cert r) as [a | ]; [ | destruct (i_token r) as [b | ] eqn:TK; [ | destruct (i_ident r) as [d | ]; [ | exfalso; destruct N as [ N | [ N | N ] ]; now apply N ] ] ]); cbn [fst snd]; reflexivity.
Qed.
(** Joined, the parts are the text. *)
Theorem C108_nothing_lost : forall id s, texts (notify_info s id) = s /\ split_from id 0 s (notify_info s id).
Proof. intros id s. assert (H := notify_info_split s id). split; auto. now apply (split_texts id 0). Qed.
(** A customer whose information is cleared is unknown to the cache; nobody else is. Nothing is deleted otherwise. *)
Theorem C108_cleared : forall e h r c, let c' := fst (handle_info e h r c) in
  (forall t, i_token r = Some t -> i_clear r = true -> n_delete_fails e = false -> forall x, ~ In (h t, x) c')
  /\ (forall k x, (i_clear r = true -> forall t, i_token r = Some t -> k <> h t) -> In (k, x) c' <-> In (k, x) c).
Proof.
  intros e h r c. cbn zeta.
  assert (G : fst (handle_info e h r c) = if i_clear r && match i_token r with Some _ => true | None => false end then fst (clear_info e h r c) else c).
  { unfold handle_info. destruct (i_report r), (i_clear r); cbn [negb andb];
    (destruct (i_cert r) as [a | ]; [ | destruct (i_token r) as [b | ] eqn:TK; [ | destruct (i_ident r) as [d | ] ] ]); cbn [fst snd]; try reflexivity;
    unfold clear_info; try rewrite TK; cbn [fst]; try reflexivity; destruct (i_token r); reflexivity. }
  rewrite G. clear G. unfold clear_info. split.
  - intros t -> -> F x. cbn [andb fst]. rewrite F. intros I. apply filter_In in I as [_ I]. cbn [fst] in I. now rewrite String.eqb_refl in I.
  - intros k x H. destruct (i_clear r); cbn [andb]; [ | tauto ]. destruct (i_token r) as [t | ]; [ | tauto ]. cbn [fst]. destruct (n_delete_fails e); [ tauto | ].
    rewrite filter_In. cbn [fst]. specialize (H eq_refl t eq_refl). apply String.eqb_neq in H. rewrite H. cbn. tauto.
Qed.
(** A part of a text in UTF-8 need not be in UTF-8, which the JSON library refuses to write. *)
Definition long_text : string := (string_of_list_ascii (repeat "a"%char 511) ++ String "195" (String "164" "!"))%string.
Theorem C108_utf8_refuted : exists s id d n t, utf8 s = true /\ In (INotify d n id t) (notify_info s id) /\ utf8 d = false.
Proof. exists long_text, 7, (substring 0 512 long_text), 0, true. split; [ vm_compute; reflexivity | ]. split; vm_compute; auto. Qed.
(** A negative MaxCustomerInformationDataLength is none. *)
Theorem C108_negative_maximum_refuted : exists e h r c, n_max e = Some (-1) /\ 100 < Z.of_nat (String.length (texts (snd (handle_info e h r c)))).
Proof.
  exists (InfoEnv (Some long_text) true false false (Some (-1))), (fun s => s), (InfoReq true false (Some "c") None None 1), []. split; auto. vm_compute. reflexivity.
Qed.
Example info_1 :
  let e := InfoEnv (Some "Smith. ") true false false (Some 60) in
  handle_info e (fun s => ("#" ++ s)%string) (InfoReq true true None (Some "T") None 7) [("#S", "x"); ("#T", "{}")]
  = ([("#S", "x")], [IAnswer IAccepted; IClear; INotify ("Smith. Hashed id_token stored in cache: #T" ++ nl ++ "IdTokenInfo: {}") 0 7 false]).
Proof. vm_compute. reflexivity. Qed.
Example info_2 : exists a b, notify_info long_text 1 = [INotify a 0 1 true; INotify b 1 1 false] /\ String.length b = 2%nat.
Proof. eexists. eexists. vm_compute. split; reflexivity. Qed.
Example info_3 : named (InfoReq false true None (Some "T") None 7) /\ shortened 60 "abc" "abc" /\ split_from 7 0 "abc" [INotify "abc" 0 7 false] /\ cached "k" [("k", "v")] "v".
Proof.
  split; [ right; left; discriminate | ]. split; [ left; cbn; split; [ lia | reflexivity ] | ]. split; [ apply split_last; cbn; apply Nat.leb_le; reflexivity | ]. exists [], []. split; auto.
Qed.

(** ** C109 *)
Theorem C109_answer : forall max n id found, 0 <= max ->
  hd_error (handle_report max n id found) =
    Some (if max <? Z.of_nat n then RError "OccurenceConstraintViolation" else RAnswer (match found with None => RRejected | Some [] => REmpty | Some _ => RAccepted end))
  /\ ((max < Z.of_nat n \/ found = None \/ found = Some []) -> tl (handle_report max n id found) = []).
Proof.
  intros max n id found M. unfold handle_report. destruct (max <? 0) eqn:Z0; [ apply Z.ltb_lt in Z0; lia | ]. destruct (max <? Z.of_nat n) eqn:L; [ split; reflexivity | ]. apply Z.ltb_ge in L.
  destruct found as [ [ | m l ] | ]; (split; [ reflexivity | ]); auto. intros [ H | [ H | H ] ]; [ lia | discriminate | discriminate ].
Qed.
(** The parts of a report are numbered, all but the last announce another one, and there are as many as are needed. *)
Theorem C109_sequence : forall id l k, (10 * (k - 1) < List.length l <= 10 * k)%nat -> numbered id 0 k (notify_report id l).
Proof.
  intros id l k K. unfold notify_report. rewrite map_length. destruct (Nat.leb (List.length l) maximum) eqn:L.
  - apply Nat.leb_le in L. unfold maximum in L. replace k with 1%nat by lia. apply numbered_last.
  - apply Nat.leb_gt in L. unfold maximum in L. apply report_numbered; rewrite ?map_length; lia.
Qed.
(** A report of at most ten entries tells all of them. *)
Theorem C109_report_partial : forall max n id l, 0 <= max -> Z.of_nat n <= max -> l <> [] -> (List.length l <= 10)%nat ->
  exists l', handle_report max n id (Some l) = [RAnswer RAccepted; RNotify id 0 false l'] /\ Forall2 plain_monitor l l'.
Proof.
  intros max n id l M N NE L. unfold handle_report. destruct (max <? 0) eqn:Z0; [ apply Z.ltb_lt in Z0; lia | ]. destruct (max <? Z.of_nat n) eqn:Q; [ apply Z.ltb_lt in Q; lia | ].
  destruct l as [ | m l ]; [ congruence | ]. unfold notify_report. rewrite map_length. replace (Nat.leb (List.length (m :: l)) maximum) with true by (symmetry; now apply Nat.leb_le).
  eexists. split; [ reflexivity | ]. apply without_event_plain.
Qed.
(** Of a longer one it tells the first ten: all further messages are empty. *)
Theorem C109_only_ten : forall id l, exists l', reported (notify_report id l) = l' /\ Forall2 plain_monitor (firstn 10 l) l'.
Proof.
  intros id l. exists (map without_event (firstn 10 l)). split; [ | apply without_event_plain ]. unfold notify_report. rewrite map_length. destruct (Nat.leb (List.length l) maximum) eqn:L.
  - apply Nat.leb_le in L. unfold reported. cbn [flat_map]. rewrite app_nil_r. now rewrite firstn_all2.
  - apply Nat.leb_gt in L. cbn [report_loop]. rewrite map_length. replace (Nat.ltb 0 (List.length l)) with true by (symmetry; apply Nat.ltb_lt; lia). unfold reported. cbn [flat_map]. fold (reported (report_loop (List.length l) id (map without_event l) (0 + maximum) (0 + 1))).
    rewrite report_empty by (unfold maximum; lia). rewrite app_nil_r, sub_first. symmetry. clear. generalize 10%nat as n. intros n. revert l. induction n as [ | n IH ]; intros l; auto. destruct l; cbn; [ reflexivity | now rewrite IH ].
Qed.
Definition many (n : nat) : list mdata := map (fun k => MData "c" [Monitor (Z.of_nat k) 1 (Some "CustomMonitor")]) (seq 0 n).
Theorem C109_report_refuted : exists id l m, In m l /\ (forall o, In o (handle_report 100 0 id (Some l)) -> match o with RNotify _ _ _ k => ~ exists m', In m' k /\ plain_monitor m m' | _ => True end).
Proof.
  exists 5, (many 11), (MData "c" [Monitor 10 1 (Some "CustomMonitor")]). split; [ vm_compute; tauto | ]. intros o I. 
  assert (F : forallb (fun o => match o with RNotify _ _ _ k => forallb (fun m => match d_monitors m with [v] => negb (v_id v =? 10) | _ => false end) k | _ => true end) (handle_report 100 0 5 (Some (many 11))) = true) by (vm_compute; reflexivity).
  rewrite forallb_forall in F. specialize (F o I). destruct o as [ | | i s t k ]; auto. intros (m' & J & _ & P). rewrite forallb_forall in F. specialize (F m' J). inversion P as [ | a b c d (X & _) Q E1 E2 ]; subst. rewrite <- E2 in F. inversion Q; subst. cbn in X. rewrite X in F. discriminate.
Qed.
Example report_1 : handle_report 100 0 5 (Some (many 2)) = [RAnswer RAccepted; RNotify 5 0 false [MData "c" [Monitor 0 1 None]; MData "c" [Monitor 1 1 None]]]
  /\ (exists a, handle_report 100 0 5 (Some (many 25)) = [RAnswer RAccepted; RNotify 5 0 true a; RNotify 5 1 true []; RNotify 5 2 false []]) /\ (10 * (3 - 1) < List.length (many 25) <= 10 * 3)%nat.
Proof. split; [ reflexivity | ]. split; [ eexists; vm_compute; reflexivity | ]. cbn. lia. Qed.

(** ** C110 *)
(** What is answered to SetDisplayMessage.req, and when the application is asked to show the message. *)
Theorem C110_set : forall e m p f s ps fs, w_priorities e = Some p -> w_formats e = Some f -> value_list ps p -> value_list fs f ->
  (forall x, w_states e = Some x -> value_list s x) ->
  let running := forall t, m_transaction m = Some t -> In t (w_running e) in
  let state := forall x, m_state m = Some x -> w_states e <> None -> In x s in
  match set_message e m with
  | [SSet g; SAnswer a] => w_available e = Some true /\ In (m_priority m) ps /\ In (k_format (m_message m)) fs /\ running /\ state /\ g = to_dmsg m /\ a = w_answer e
  | [SAnswer a] =>
      (w_available e <> Some true /\ a = "Rejected")
      \/ (w_available e = Some true /\ ~ In (m_priority m) ps /\ a = "NotSupportedPriority")
      \/ (w_available e = Some true /\ In (m_priority m) ps /\ ~ In (k_format (m_message m)) fs /\ a = "NotSupportedMessageFormat")
      \/ (w_available e = Some true /\ In (m_priority m) ps /\ In (k_format (m_message m)) fs /\ ~ running /\ a = "UnknownTransaction")
      \/ (w_available e = Some true /\ In (m_priority m) ps /\ In (k_format (m_message m)) fs /\ running /\ ~ state /\ a = "NotSupportedState")
  | _ => False
  end.
Proof.
  intros e m p f s ps fs WP WF P F S running state. unfold set_message. rewrite WP, WF.
  assert (A : (match w_available e with Some b => b | None => false end) = true <-> w_available e = Some true) by (destruct (w_available e) as [ [ | ] | ]; split; congruence).
  destruct (match w_available e with Some b => b | None => false end); cbn [negb]. 2: { left. split; auto. intros C. apply A in C. discriminate. }
  assert (A' := proj1 A eq_refl). clear A.
  assert (B := listed_in (m_priority m) ps p P). destruct (listed (m_priority m) p); cbn [negb]. 2: { right. left. split; auto. split; auto. intros C. apply B in C. discriminate. }
  assert (B' := proj1 B eq_refl). clear B.
  assert (C := listed_in (k_format (m_message m)) fs f F). destruct (listed (k_format (m_message m)) f); cbn [negb]. 2: { right. right. left. repeat split; auto. intros X. apply C in X. discriminate. }
  assert (C' := proj1 C eq_refl). clear C.
  assert (D : (match m_transaction m with None => true | Some t => existsb (String.eqb t) (w_running e) end) = true <-> running).
  { unfold running. destruct (m_transaction m) as [t | ]. - rewrite existsb_exists. split. + intros (x & I & E) t' H. inversion H; subst. apply String.eqb_eq in E. now subst. + intros H. exists t. split; auto. apply String.eqb_refl. - split; [ discriminate | auto ]. }
  destruct (match m_transaction m with None => true | Some t => existsb (String.eqb t) (w_running e) end); cbn [negb]. 2: { right. right. right. left. repeat split; auto. intros X. apply D in X. discriminate. }
  assert (D' := proj1 D eq_refl). clear D.
  assert (E : (match m_state m, w_states e with Some s, Some states => negb (listed s states) | _, _ => false end) = false <-> state).
  { unfold state. destruct (m_state m) as [x | ]; [ | split; [ discriminate | auto ] ]. destruct (w_states e) as [y | ] eqn:W; [ | split; auto; intros _ z _ C; congruence ].
    rewrite negb_false_iff, (listed_in x s y) by now apply S. split; [ intros H z Q _; inversion Q; now subst | intros H; apply H; auto; discriminate ]. }
  destruct (match m_state m, w_states e with Some s, Some states => negb (listed s states) | _, _ => false end).
  - right. right. right. right. repeat split; auto. intros X. apply E in X. discriminate.
  - assert (E' := proj1 E eq_refl). repeat split; auto.
Qed.
(** A message the CSMS has set is told as it was set, but for the display it was meant for and its further texts. *)
Theorem C110_round_trip_partial : forall m, ok_message m ->
  to_minfo (to_dmsg m) = Some (Some (MInfo (m_id m) (m_priority m) (m_message m) None (m_state m) (m_start m) (m_end m) (m_transaction m) None)).
Proof.
  intros m (A & B & C). unfold to_minfo. cbn [to_dmsg g_id g_priority g_message g_identifier g_state g_from g_to to_dcontent x_text x_language x_format].
  rewrite (proj2 (fits_iff _ _) A), (proj2 (fits_opt_iff _ _) B), (proj2 (fits_opt_iff _ _) C). cbn [andb]. now destruct (m_message m).
Qed.
Theorem C110_round_trip_refuted : exists m, ok_message m /\ to_minfo (to_dmsg m) <> Some (Some m).
Proof.
  exists (MInfo 1 "AlwaysFront" (Content "UTF8" "hello" (Some "en")) (Some "Display2") None None None None (Some [Content "UTF8" "hallo" (Some "de")])).
  split; [ | discriminate ]. split; [ apply Nat.leb_le; reflexivity | ]. split; cbn; intros s E; [ | discriminate ]. inversion E. cbn. lia.
Qed.
(** The CSMS is told, in their order, all messages of the application that have an id and a priority, if their texts are not too long. *)
Theorem C110_get : forall id l k, (forall g, In g l -> complete g = true -> short g) -> Forall2 tells (filter complete l) k ->
  get_messages id l = match k with [] => [SGot false] | _ => [SGot true; SMessages id k] end.
Proof.
  intros id l k H F. unfold get_messages. destruct (convert_ok l H) as (k' & -> & F'). assert (k = k').
  { clear -F F'. revert k' F'. induction F as [ | g m a b T F IH ]; intros k' F'; inversion F'; subst; auto. f_equal; [ eapply tells_unique; eauto | auto ]. } subst. destruct k'; reflexivity.
Qed.
(** One message with a text that is too long hides all others. *)
Definition wordy : dmsg := DMsg (Some 2) (Some "InFront") None None None None None (DContent "x" (Some "en-GB-oed") None) None.
Definition fine : dmsg := DMsg (Some 1) (Some "InFront") None None None (Some "session-1") (Some SessionId) (DContent "hello" (Some "en") None) None.
Theorem C110_get_refuted : exists id l g, In g l /\ complete g = true /\ short g /\ get_messages id l = [SFailed].
Proof.
  exists 1, [fine; wordy], fine. split; [ now left | ]. split; [ reflexivity | ]. split; [ | vm_compute; reflexivity ]. split; [ apply Nat.leb_le; reflexivity | ]. split; cbn; intros s E; inversion E; cbn; lia.
Qed.
(** A message of a session is told with the session as its transaction. *)
Theorem C110_identifier_refuted : exists g m, g_type g = Some SessionId /\ to_minfo g = Some (Some m) /\ m_transaction m <> None.
Proof. exists fine. eexists. split; [ reflexivity | ]. split; [ vm_compute; reflexivity | discriminate ]. Qed.
Definition show : show_env := ShowEnv (Some true) (Some "AlwaysFront, InFront") (Some "ASCII,UTF8 ") (Some "Idle") ["T1"] "Accepted".
Definition note (p : string) (t : option string) (s : option string) : minfo := MInfo 1 p (Content "UTF8" "hello" None) None s None None t None.
Example show_1 : set_message show (note "NormalCycle" None None) = [SAnswer "NotSupportedPriority"]
  /\ set_message show (note "InFront" (Some "T2") None) = [SAnswer "UnknownTransaction"]
  /\ set_message show (note "InFront" None (Some "Charging")) = [SAnswer "NotSupportedState"]
  /\ set_message show (note "InFront" (Some "T1") (Some "Idle")) = [SSet (to_dmsg (note "InFront" (Some "T1") (Some "Idle"))); SAnswer "Accepted"]
  /\ (exists m, get_messages 9 [fine; DMsg None None None None None None None (DContent "" None None) None] = [SGot true; SMessages 9 [m]]).
Proof. repeat split; try (vm_compute; reflexivity). eexists. vm_compute. reflexivity. Qed.
Example show_2 : value_list ["AlwaysFront"; "InFront"] "AlwaysFront, InFront".
Proof.
  exists [(0%nat, "AlwaysFront", 0%nat); (1%nat, "InFront", 0%nat)]. split; [ discriminate | ]. split; [ | split; reflexivity ].
  assert (W : forall s, existsb (Ascii.eqb ",") (list_ascii_of_string s) = false -> without "," s). { intros s E I. unfold chars in I. assert (existsb (Ascii.eqb ",") (list_ascii_of_string s) = true). { apply existsb_exists. exists ","%char. split; auto. } congruence. }
  repeat constructor; cbn [fst snd]; try (apply W; reflexivity); unfold neat; repeat split; try discriminate; intros r E; repeat (destruct r as [ | ? r ]; cbn in E; try congruence).
Qed.

(** ** C111 *)
(** The application is told the cost of a transaction exactly if costs are shown and the CSMS has sent one, and then with the
    numbers of the CSMS. *)
Theorem C111_cost : forall e p m r d cur, In (CCost r d cur) (handle_cost e p m) ->
  shows_costs e /\ z_cost_callback e = true /\ p_cost p = Some (r_cost r) /\ z_currency e = Some cur
  /\ r_transaction r = e_transaction m /\ r_time r = Some (e_time m) /\ (r_state r = Finished <-> e_ended m = true)
  /\ (z_decimals e = Some d \/ d = 3) /\ 0 <= d
  /\ match r_meter r with
     | Some v => exists l q, e_meter m = Some l /\ readings l q /\ (forall q', readings l q' -> (q' <= q)%Q) /\ (0 <= Qnum q -> v = Qfloor q)
     | None => forall l q, e_meter m = Some l -> ~ readings l q
     end
  /\ (forall l c, r_messages r = Some l -> In c l -> shows_tariffs e)
  /\ (forall x, r_qr r = Some x <-> is_on (z_qr e) /\ exists u, p_custom p = Some u /\ u_qr u = Some x).
Proof.
  intros e p m r d cur I. unfold handle_cost in I. apply in_app_or in I as [ I | I ].
  { exfalso. destruct (match p_message p with Some k => if tariff_enabled e then [to_dcontent k] else [] | None => [] end); cbn in I; [ auto | ]. destruct (_ && _); cbn in I; [ destruct I as [ I | [] ]; discriminate | auto ]. }
  destruct (p_cost p) as [cost | ]; [ | destruct I ]. destruct (cost_enabled e && z_cost_callback e) eqn:E; [ | destruct I ]. apply andb_true_iff in E as [E1 E2].
  remember (match e_meter m with Some l => max_meter l | None => None end) as mt eqn:MT. destruct (match mt with Some q => option_map Some (to_meter q) | None => Some None end) as [meter | ] eqn:TM; [ | destruct I as [ I | [] ]; discriminate ].
  destruct (z_currency e) as [cu | ]; [ | destruct I as [ I | [] ]; discriminate ]. destruct I as [ I | [] ]. inversion I; subst; clear I. cbn [r_cost r_transaction r_time r_state r_meter r_messages].
  split; [ now apply cost_on | ]. split; auto. split; auto. split; auto. split; auto. split; auto. split; [ destruct (e_ended m); split; congruence | ].
  split. { unfold decimals. destruct (z_decimals e) as [x | ]; auto. destruct (x <? 0); auto. }
  split. { unfold decimals. destruct (z_decimals e) as [x | ]; [ | lia ]. destruct (x <? 0) eqn:X; [ lia | apply Z.ltb_ge in X; lia ]. }
  split.
  - destruct (e_meter m) as [l | ]. 2: { cbn in TM. inversion TM. intros l q H. discriminate. }
    assert (MX := max_meter_ok l). destruct (max_meter l) as [q | ].
    + unfold to_meter in TM. destruct ((- 2 ^ 31 <=? truncate q) && (truncate q <? 2 ^ 31)) eqn:R; [ | discriminate ]. cbn in TM. inversion TM; subst. apply andb_true_iff in R as [R1 R2]. apply Z.leb_le in R1. apply Z.ltb_lt in R2.
      exists l, q. split; auto. destruct MX as [M1 M2]. split; auto. split; auto. intros P. change (Z.pow_pos 2 31) with (2 ^ 31) in *. unfold truncate in *. destruct (0 <=? Qnum q) eqn:Z0; [ | apply Z.leb_gt in Z0; lia ].
      apply Z.mod_small. split; [ | change (2 ^ 32) with 4294967296; change (2 ^ 31) with 2147483648 in R2; lia ]. unfold Qfloor. destruct q as [a b]. cbn in *. apply Z.div_pos; lia.
    + inversion TM; subst. intros l' q H. inversion H; subst. apply MX.
  - split; [ intros l c H IN; apply tariff_on; destruct (_ ++ _) in H; [ discriminate | ]; destruct (tariff_enabled e); auto; discriminate | ].
    intros x. cbn [r_qr]. rewrite <- yes_on. destruct (p_custom p) as [u | ]; [ | split; [ discriminate | intros (_ & u & C & _); discriminate ] ].
    destruct (yes (z_qr e)); split; try discriminate; [ eauto | intros (_ & u' & C & Q); now inversion C; subst | intros (C & _); discriminate ].
Qed.
Theorem C111_cost_told : forall e p m cost, shows_costs e -> z_cost_callback e = true -> p_cost p = Some cost -> z_currency e <> None ->
  (forall l q, e_meter m = Some l -> readings l q -> (- (2 ^ 31 # 1) < q)%Q /\ (q < 2 ^ 31 # 1)%Q) ->
  exists r d cur, In (CCost r d cur) (handle_cost e p m).
Proof.
  intros e p m cost S C P Z0 R. apply cost_on in S. unfold handle_cost. rewrite P, S, C. cbn [andb].
  assert (G : exists meter, match match e_meter m with Some l => max_meter l | None => None end with Some q => option_map Some (to_meter q) | None => Some None end = Some meter).
  { destruct (e_meter m) as [l | ]; [ | now exists None ]. assert (MX := max_meter_ok l). destruct (max_meter l) as [q | ]; [ | now exists None ]. destruct MX as [M1 _]. destruct (R l q eq_refl M1) as [A B]. clear R.
    unfold to_meter. assert (T : (- 2 ^ 31 <=? truncate q) && (truncate q <? 2 ^ 31) = true).
    { unfold truncate. change (2 ^ 31) with 2147483648 in *. destruct q as [a b]. unfold Qlt, Qfloor, Qopp in *. cbn [Qnum Qden] in *. apply andb_true_iff. destruct (0 <=? a) eqn:Z1.
      - apply Z.leb_le in Z1. split; [ apply Z.leb_le; assert (0 <= a / Z.pos b) by (apply Z.div_pos; lia); lia | apply Z.ltb_lt; apply Z.div_lt_upper_bound; lia ].
      - apply Z.leb_gt in Z1. assert (- a / Z.pos b < 2147483648) by (apply Z.div_lt_upper_bound; lia). assert (0 <= - a / Z.pos b) by (apply Z.div_pos; lia). split; [ apply Z.leb_le; lia | apply Z.ltb_lt; lia ]. }
    rewrite T. eexists. reflexivity. }
  destruct G as [meter ->]. destruct (z_currency e) as [cur | ]; [ | congruence ]. eexists. eexists. eexists. apply in_or_app. right. left. reflexivity.
Qed.
(** Which messages go with it: the personal one, then those in other languages the station has. *)
Theorem C111_messages : forall e p m r d cur c, In (CCost r d cur) (handle_cost e p m) -> shows_tariffs e ->
  (exists l, r_messages r = Some l /\ In c l) <->
    (exists k, p_message p = Some k /\ c = to_dcontent k)
    \/ (is_on (z_multi e) /\ exists u l k s x, p_custom p = Some u /\ u_extra u = Some l /\ In k l /\ c = to_dcontent k /\ z_languages e = Some s /\ k_language k = Some x /\ In x (split_string s "," true)).
Proof.
  intros e p m r d cur c I T. apply tariff_on in T. unfold handle_cost in I. rewrite T in I. apply in_app_or in I as [ I | I ].
  { exfalso. destruct (p_message p); cbn in I; [ | auto ]. destruct (_ && _); cbn in I; [ destruct I as [ I | [] ]; discriminate | auto ]. }
  destruct (p_cost p) as [cost | ]; [ | destruct I ]. destruct (cost_enabled e && z_cost_callback e); [ | destruct I ].
  destruct (match match e_meter m with Some l => max_meter l | None => None end with Some q => option_map Some (to_meter q) | None => Some None end) as [meter | ]; [ | destruct I as [ I | [] ]; discriminate ].
  destruct (z_currency e) as [cu | ]; [ | destruct I as [ I | [] ]; discriminate ]. destruct I as [ I | [] ]. inversion I; subst; clear I. cbn [r_messages].
  set (P := match p_message p with Some k => [to_dcontent k] | None => [] end). set (X := match p_custom p with Some u => extra e u | None => [] end).
  transitivity (In c (P ++ X)).
  { destruct (P ++ X) as [ | a b ]; [ split; [ intros (l & H & _); discriminate | intros [] ] | ]. split. - intros (l & H & J). inversion H; subst. exact J. - intros J. eexists. split; [ reflexivity | exact J ]. }
  rewrite in_app_iff. assert (H1 : In c P <-> exists k, p_message p = Some k /\ c = to_dcontent k).
  { unfold P. destruct (p_message p) as [k | ]; cbn; split. - intros [ <- | [] ]. eauto. - intros (k' & H & ->). inversion H. now left. - intros []. - intros (k' & H & _). discriminate. }
  assert (H2 : In c X <-> (is_on (z_multi e) /\ exists u l k s x, p_custom p = Some u /\ u_extra u = Some l /\ In k l /\ c = to_dcontent k /\ z_languages e = Some s /\ k_language k = Some x /\ In x (split_string s "," true))).
  { unfold X. destruct (p_custom p) as [u | ]; [ | split; [ intros [] | intros (_ & u & l & k & s & x & H & _); discriminate ] ]. unfold extra. destruct (u_extra u) as [l | ] eqn:U; [ | split; [ intros [] | intros (_ & u' & l & k & s & x & H & H' & _); congruence ] ].
    destruct (yes (z_multi e)) eqn:Y. 2: { split; [ intros [] | intros (H & _); apply yes_on in H; congruence ]. } apply yes_on in Y. rewrite in_map_iff. split.
    - intros (k & <- & J). apply filter_In in J as [J1 J2]. split; auto. destruct (k_language k) as [x | ] eqn:KL; [ | discriminate ]. apply existsb_exists in J2 as (y & J2 & J3). apply String.eqb_eq in J3. subst y. destruct (z_languages e) as [s | ]; [ | destruct J2 ]. exists u, l, k, s, x. repeat split; auto.
    - intros (_ & u' & l' & k & s & x & A & B & J & -> & Z0 & KL & IX). inversion A; subst u'. rewrite U in B. inversion B; subst l'. exists k. split; auto. apply filter_In. split; auto. rewrite KL, Z0. apply existsb_exists. exists x. split; auto. apply String.eqb_refl. }
  tauto.
Qed.
(** A tariff message of its own is shown exactly if tariffs are shown and costs are not. *)
Theorem C111_tariff : forall e p m t l, In (CTariff t l) (handle_cost e p m) <->
  shows_tariffs e /\ ~ shows_costs e /\ z_tariff_callback e = true /\ t = e_transaction m /\ exists k, p_message p = Some k /\ l = [DContent (k_text k) (k_language k) (Some (k_format k))].
Proof.
  intros e p m t l. rewrite <- tariff_on, <- cost_on. unfold handle_cost. rewrite in_app_iff.
  match goal with |- _ \/ In _ ?L <-> _ => assert (N : ~ In (CTariff t l) L) end.
  { destruct (p_cost p); [ | intros [] ]. destruct (_ && _); [ | intros [] ]. destruct (match match e_meter m with Some l => max_meter l | None => None end with Some q => option_map Some (to_meter q) | None => Some None end); [ destruct (z_currency e) | ]; intros [ H | [] ]; discriminate. }
  split.
  - intros [ I | I ]; [ | now apply N in I ]. destruct (p_message p) as [k | ]; [ | destruct I ]. destruct (tariff_enabled e); [ | destruct I ]. destruct (cost_enabled e); cbn [negb andb] in I; [ destruct I | ]. destruct (z_tariff_callback e); [ | destruct I ]. destruct I as [ I | [] ]. inversion I; subst. repeat split; auto. eauto.
  - intros (A & B & C & -> & k & -> & ->). left. rewrite A, C. destruct (cost_enabled e); [ congruence | ]. cbn. now left.
Qed.
(** A personal message the CSMS has sent is not always shown: not if costs are shown and it sends no cost along. *)
Definition env1 : cost_env := CostEnv (Some true) (Some true) (Some true) (Some true) (Some true) (Some true) (Some true) (Some "en,de") (Some 2) (Some "EUR") true true (fun t => if String.eqb t "T1" then Some 1 else None).
Definition hello : content := Content "UTF8" "0.30 EUR/kWh" (Some "en").
Theorem C111_message_shown_refuted : exists e p m k, shows_tariffs e /\ z_tariff_callback e = true /\ z_cost_callback e = true /\ p_message p = Some k /\ handle_cost e p m = [].
Proof. exists env1, (EventResp None (Some hello) None), (Event "T1" false 5 None), hello. vm_compute. repeat split. Qed.
(** An energy register without a measurand, which is one by default, is not seen; one of 2^31 Wh or more is undefined behaviour. *)
Theorem C111_meter_refuted :
  (exists e p m, handle_cost e p m = [CCost (Running "T1" (Some 5) None (25 # 10) Finished None None None) 2 "EUR"] /\ e_meter m = Some [[Sample None None 1500]])
  /\ exists e p m, In CUndefined (handle_cost e p m).
Proof.
  split; [ exists env1, (EventResp (Some (25 # 10)) None None), (Event "T1" true 5 (Some [[Sample None None 1500]])); vm_compute; split; reflexivity | ].
  exists env1, (EventResp (Some (25 # 10)) None None), (Event "T1" true 5 (Some [[Sample (Some "Energy.Active.Import.Register") None 2147483648]])). vm_compute. auto.
Qed.
(** CostUpdated.req: always answered once, but for a missing currency; the cost is passed on with the numbers of the request;
    the triggers are set for the EVSE of the transaction. *)
Theorem C111_updated : forall e u, (shows_costs e -> z_cost_callback e = true -> z_currency e <> None) ->
  List.length (filter (fun o => match o with CAnswer => true | _ => false end) (handle_updated e u)) = 1%nat
  /\ ((exists r d cur, In (CCost r d cur) (handle_updated e u)) <-> shows_costs e /\ z_cost_callback e = true)
  /\ (forall r d cur, In (CCost r d cur) (handle_updated e u) -> r_cost r = y_cost u /\ r_transaction r = y_transaction u /\ (z_california e <> Some true -> r_state r = Charging /\ r_messages r = None)
        /\ (forall x, z_california e = Some true -> y_custom u = Some x -> r_state r = r_state (fst x) /\ r_time r = r_time (fst x) /\ r_meter r = r_meter (fst x) /\ r_prices r = r_prices (fst x) /\ r_messages r = r_messages (fst x) /\ r_qr r = r_qr (fst x)))
  /\ (forall v t, In (CTriggers v t) (handle_updated e u) <->
        shows_costs e /\ z_cost_callback e = true /\ z_california e = Some true /\ (exists r, y_custom u = Some (r, t)) /\ t <> (None, None, None) /\ z_evse e (y_transaction u) = Some v).
Proof.
  intros e u H. assert (SC := cost_on e). unfold handle_updated. destruct (cost_enabled e); cbn [negb orb].
  1: assert (S := proj1 SC eq_refl). 2: assert (NS : ~ shows_costs e) by (intros C; apply SC in C; discriminate).
  2: { split; [ reflexivity | ]. split; [ split; [ intros (r & d & cur & [ C | [] ]); discriminate | intros [C _]; now apply NS in C ] | ]. split; [ intros r d cur [ C | [] ]; discriminate | ]. intros v t. split; [ intros [ C | [] ]; discriminate | intros (C & _); now apply NS in C ]. }
  destruct (z_cost_callback e); cbn [negb].
  2: { split; [ reflexivity | ]. split; [ split; [ intros (r & d & cur & [ C | [] ]); discriminate | intros [_ C]; discriminate ] | ]. split; [ intros r d cur [ C | [] ]; discriminate | ]. intros v t. split; [ intros [ C | [] ]; discriminate | intros (_ & C & _); discriminate ]. }
  destruct (z_currency e) as [cur | ]; [ | exfalso; now apply H ]. clear H.
  assert (Y : yes (z_california e) = true <-> z_california e = Some true) by apply yes_on.
  remember (match y_custom u with Some x => if yes (z_california e) then x else (Running "" None None 0 Charging None None None, (None, None, None)) | None => (Running "" None None 0 Charging None None None, (None, None, None)) end) as rt eqn:RT.
  destruct rt as [r t].
  assert (Q : forall v x, In (CTriggers v x) (if none_set t then [] else match z_evse e (y_transaction u) with Some evse => [CTriggers evse t] | None => [] end) <-> (x = t /\ t <> (None, None, None) /\ z_evse e (y_transaction u) = Some v)).
  { intros v x. destruct t as [ [ [a | ] [b | ] ] [c | ] ]; cbn [none_set]; try (split; [ intros [] | intros (_ & C & _); congruence ]);
    destruct (z_evse e (y_transaction u)) as [w | ]; cbn; split; try (intros [ C | [] ]; inversion C; subst; repeat split; auto; discriminate); try (intros (-> & _ & C); inversion C; now left); try (intros []); intros (_ & _ & C); discriminate. }
  assert (NA : forall o, In o (if none_set t then [] else match z_evse e (y_transaction u) with Some evse => [CTriggers evse t] | None => [] end) -> exists v x, o = CTriggers v x).
  { intros o. destruct (none_set t); [ intros [] | ]. destruct (z_evse e (y_transaction u)); [ intros [ <- | [] ]; eauto | intros [] ]. }
  split. { cbn [filter]. destruct (none_set t); [ reflexivity | ]. destruct (z_evse e (y_transaction u)); reflexivity. }
  split. { split; [ auto | intros _; do 3 eexists; left; reflexivity ]. }
  split.
  - intros r' d' cur' [ C | [ C | C ] ]; [ | discriminate | apply NA in C as (v & x & C); discriminate ]. inversion C; subst. cbn. split; auto. split; auto. split. 2: { intros x NC YC. apply Y in NC. rewrite YC, NC in RT. subst x. repeat split. }
    intros NC. destruct (y_custom u) as [x | ]; [ | now inversion RT; subst ]. destruct (yes (z_california e)); [ exfalso; apply NC; now apply Y | now inversion RT; subst ].
  - intros v x. cbn [In]. split.
    + intros [ C | [ C | C ] ]; [ discriminate | discriminate | ]. apply Q in C as ( -> & T & Z0 ). split; auto. split; auto. destruct (y_custom u) as [ [r0 t0] | ]; [ | inversion RT; subst; congruence ]. destruct (yes (z_california e)) eqn:YC; [ | inversion RT; subst; congruence ]. inversion RT; subst. split; [ now apply Y | ]. eauto.
    + intros (_ & _ & C & (r0 & R0) & T & Z0). right. right. apply Q. rewrite R0 in RT. apply Y in C. rewrite C in RT. inversion RT; subst. auto.
Qed.
Example cost_1 :
  handle_cost env1 (EventResp (Some (25 # 10)) (Some hello) (Some (Custom (Some "qr") (Some [Content "UTF8" "hallo" (Some "de"); Content "UTF8" "salut" (Some "fr")]))))
    (Event "T1" true 5 (Some [[Sample (Some "Voltage") None 230; Sample (Some "Energy.Active.Import.Register") None (30001 # 2)]; [Sample (Some "Energy.Active.Import.Register") None 7]]))
  = [CCost (Running "T1" (Some 5) (Some 15000) (25 # 10) Finished None (Some [DContent "0.30 EUR/kWh" (Some "en") (Some "UTF8"); DContent "hallo" (Some "de") (Some "UTF8")]) (Some "qr")) 2 "EUR"]
  /\ shows_costs env1 /\ shows_tariffs env1
  /\ handle_updated env1 (Updated 3 "T1" (Some (Running "" None None 0 Idle None None None, (Some 11, None, None)))) = [CCost (Running "T1" None None 3 Idle None None None) 2 "EUR"; CAnswer; CTriggers 1 (Some 11, None, None)].
Proof. vm_compute. repeat split. Qed.
Print Assumptions C108_answer.
Print Assumptions C108_report.
Print Assumptions C108_nothing_lost.
Print Assumptions C108_cleared.
Print Assumptions C108_utf8_refuted.
Print Assumptions C108_negative_maximum_refuted.
Print Assumptions C109_answer.
Print Assumptions C109_sequence.
Print Assumptions C109_report_partial.
Print Assumptions C109_only_ten.
Print Assumptions C109_report_refuted.
Print Assumptions C110_set.
Print Assumptions C110_round_trip_partial.
Print Assumptions C110_round_trip_refuted.
Print Assumptions C110_get.
Print Assumptions C110_get_refuted.
Print Assumptions C110_identifier_refuted.
Print Assumptions C111_cost.
Print Assumptions C111_cost_told.
Print Assumptions C111_messages.
Print Assumptions C111_tariff.
Print Assumptions C111_message_shown_refuted.
Print Assumptions C111_meter_refuted.
Print Assumptions C111_updated.
