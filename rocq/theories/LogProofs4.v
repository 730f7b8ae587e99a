(** Proofs about the lines that messages make in the log. *)
From Coq Require Import ZArith String Ascii List Bool Lia.
From Verif Require Import StrModel LogModel LogSpec.
Import ListNotations.
Open Scope string_scope.
Open Scope list_scope.
Open Scope Z_scope.

Lemma run_snoc raw ses l o : log_run raw ses (l ++ [o]) = log_step (log_run raw ses l) o.
Proof. unfold log_run. now rewrite fold_left_app. Qed.

Lemma look_store m id v i : look (store m id v) i = if String.eqb i id then v else look m i.
Proof.
  unfold look, store. cbn [find fst]. rewrite (String.eqb_sym id i). destruct (String.eqb_spec i id) as [->|N]; [reflexivity|].
  induction m as [|[k w] m IH]; [reflexivity|]. cbn [filter fst find].
  destruct (String.eqb_spec k id) as [->|K]; cbn [negb].
  - rewrite IH. destruct (String.eqb_spec id i); [congruence|reflexivity].
  - cbn [find fst]. destruct (String.eqb k i); [reflexivity|exact IH].
Qed.
Lemma keys_store m id v i : In i (List.map fst (store m id v)) <-> i = id \/ In i (List.map fst m).
Proof.
  unfold store. cbn [List.map fst In]. rewrite !in_map_iff. split.
  - intros [H|(p & E & H)]; [left; now symmetry|]. apply filter_In in H as [H _]. right. exists p. now split.
  - intros [->|(p & E & H)]; [now left|]. destruct (String.eqb_spec i id) as [->|N]; [now left|].
    right. exists p. split; [exact E|]. apply filter_In. split; [exact H|]. rewrite E.
    now destruct (String.eqb_spec i id).
Qed.

(** What the lookup map knows after a history. *)
Definition knows (m : lookups) (h : list call) : Prop :=
  forall id, look m id = match open_call h id with Some a => (a ++ "Response")%string | None => "" end.
Definition kind_of (up : bool) : log_type := if up then ChargePoint else CentralSystem.
Lemma format_knows m h up ty x : knows m h ->
  knows (fst (format_message m (kind_of up) ty x)) (Message up ty x :: h) /\
  snd (format_message m (kind_of up) ty x) = line_of h up ty x.
Proof.
  intros K. unfold format_message, line_of. cbn [open_call]. unfold knows. cbn [open_call].
  destruct (reads x) as [a|id a|id|]; cbn [fst snd].
  - split; [exact K|]. destruct a; reflexivity.
  - split; [|reflexivity]. intros i. rewrite look_store, (String.eqb_sym id i). destruct (String.eqb i id); [reflexivity|apply K].
  - split; [|now rewrite K]. intros i. rewrite look_store, (String.eqb_sym id i). destruct (String.eqb i id); [reflexivity|apply K].
  - split; [exact K|reflexivity].
Qed.
Lemma log_message_lines g h up ty x : knows (map g) h ->
  lines (log_message (kind_of up) ty x g) = lines g ++ [line_of h up ty x] /\
  raws (log_message (kind_of up) ty x g) = raws g /\
  knows (map (log_message (kind_of up) ty x g)) (Message up ty x :: h).
Proof.
  intros K. unfold log_message. destruct (format_knows (map g) h up ty x K) as [A B].
  destruct (format_message (map g) (kind_of up) ty x) as [m e]. cbn [fst snd lines raws map] in *. subst e. auto.
Qed.

Lemma times_sys n m g : map (times n (log_sys m) g) = map g /\ raws (times n (log_sys m) g) = raws g /\
  filter from_peer (lines (times n (log_sys m) g)) = filter from_peer (lines g).
Proof.
  induction n as [|n IH]; [auto|]. cbn [times]. destruct IH as (A & B & F). unfold log_sys at 1 3 5. cbn [map raws lines].
  split; [exact A|]. split; [exact B|]. rewrite filter_app, F. cbn [filter from_peer from]. apply app_nil_r.
Qed.
Lemma times_raw n t a b g : map (times n (log_raw_line t a b) g) = map g /\ lines (times n (log_raw_line t a b) g) = lines g.
Proof. induction n as [|n IH]; [auto|]. cbn [times]. destruct IH as (A & B). now split. Qed.

Lemma from_peer_line h up ty x : from_peer (line_of h up ty x) = true.
Proof. unfold from_peer, line_of. cbn [from]. now destruct up. Qed.

Lemma own_inv raw ses l : filter from_peer (lines (own (log_run raw ses l))) = expected (rev l) /\ knows (map (own (log_run raw ses l))) (rev l).
Proof.
  induction l as [|o l IH] using rev_ind; [split; [reflexivity|intros id; reflexivity]|].
  rewrite run_snoc, rev_app_distr. cbn [rev app]. set (s := log_run raw ses l) in *. destruct IH as [A B].
  destruct o as [up ty x|m|m t|id|id]; cbn [log_step expected open_call]; cbn [own].
  - destruct (log_message_lines (own s) (rev l) up ty x B) as (C1 & _ & C3). fold (kind_of up). rewrite C1.
    split; [|exact C3]. rewrite filter_app, A. cbn [filter]. now rewrite from_peer_line.
  - destruct (times_sys (if session_logging s then List.length (sessions s) else O) m (log_sys m (own s))) as (T1 & _ & T3).
    rewrite T1, T3. unfold log_sys. cbn [lines map]. split; [|exact B].
    rewrite filter_app, A. cbn [filter from_peer from]. apply app_nil_r.
  - destruct (log_raw s); [|split; [exact A|exact B]]. cbn [own].
    destruct (times_raw (if session_logging s then List.length (sessions s) else O) t "" m (log_raw_line t m "" (own s))) as (T1 & T2).
    rewrite T1, T2. split; [exact A|exact B].
  - split; [exact A|exact B].
  - split; [exact A|exact B].
Qed.

Lemma heard_inv raw ses l : heard (log_run raw ses l) = received l.
Proof.
  induction l as [|o l IH] using rev_ind; [reflexivity|]. rewrite run_snoc.
  assert (R : received (l ++ [o]) = received l ++ received [o]).
  { clear IH. induction l as [|p l IH]; [reflexivity|]. cbn [app received]. destruct p; rewrite ?IH; reflexivity. }
  rewrite R. set (s := log_run raw ses l) in *.
  destruct o as [up ty x|m|m t|id|id]; cbn [log_step received]; rewrite ?app_nil_r; cbn [heard]; rewrite ?IH; try reflexivity.
  destruct (log_raw s); [reflexivity|exact IH].
Qed.

Lemma flags_inv raw ses l : log_raw (log_run raw ses l) = raw /\ session_logging (log_run raw ses l) = ses.
Proof.
  induction l as [|o l IH] using rev_ind; [split; reflexivity|]. rewrite run_snoc. destruct IH as [A B].
  destruct o as [up ty x|m|m t|id|id]; cbn [log_step]; try (split; assumption).
  destruct (log_raw (log_run raw ses l)) eqn:E; split; cbn [log_raw session_logging]; congruence.
Qed.

(** Sessions. *)
Definition session (s : station) (id : string) : option (string * logger) := find (fun p => String.eqb (fst p) id) (sessions s).
Lemma find_filter id i (l : list (string * logger)) : i <> id ->
  find (fun p => String.eqb (fst p) id) (filter (fun p => negb (String.eqb (fst p) i)) l) = find (fun p => String.eqb (fst p) id) l.
Proof.
  intros N. induction l as [|[k g] l IH]; [reflexivity|]. cbn [filter find fst].
  destruct (String.eqb_spec k i) as [->|K]; cbn [negb].
  - rewrite IH. destruct (String.eqb_spec i id); [contradiction|reflexivity].
  - cbn [find fst]. destruct (String.eqb k id); [reflexivity|exact IH].
Qed.
Lemma find_removed id (l : list (string * logger)) :
  find (fun p => String.eqb (fst p) id) (filter (fun p => negb (String.eqb (fst p) id)) l) = None.
Proof.
  induction l as [|[k g] l IH]; [reflexivity|]. cbn [filter fst]. destruct (String.eqb_spec k id) as [->|K]; cbn [negb]; [exact IH|].
  cbn [find fst]. destruct (String.eqb_spec k id); [contradiction|exact IH].
Qed.
Lemma find_mapped id (f : logger -> logger) (l : list (string * logger)) :
  find (fun p => String.eqb (fst p) id) (List.map (fun p => (fst p, f (snd p))) l) =
  match find (fun p => String.eqb (fst p) id) l with Some p => Some (fst p, f (snd p)) | None => None end.
Proof. induction l as [|[k g] l IH]; [reflexivity|]. cbn [List.map find fst snd]. destruct (String.eqb k id); [reflexivity|exact IH]. Qed.

Lemma session_step s o id : ~ about id o -> session_logging s = true ->
  session (log_step s o) id =
  match o with
  | Message up ty x => match session s id with Some p => Some (fst p, log_message (kind_of up) ty x (snd p)) | None => None end
  | _ => session s id
  end.
Proof.
  intros N S. unfold session. destruct o as [up ty x|m|m t|i|i]; cbn [log_step].
  - cbn [sessions]. rewrite S. apply find_mapped.
  - reflexivity.
  - now destruct (log_raw s).
  - cbn [sessions find fst]. assert (X : i <> id) by (intros ->; apply N; now left).
    destruct (String.eqb_spec i id); [contradiction|]. now apply find_filter.
  - cbn [sessions]. apply find_filter. intros ->. apply N. now right.
Qed.

Lemma session_inv raw l1 id l2 : Forall (fun o => ~ about id o) l2 ->
  exists g, session (log_run raw true (l1 ++ StartSession id :: l2)) id = Some (id, g) /\
            lines g = started :: expected (rev l2) /\ raws g = [] /\ knows (map g) (rev l2).
Proof.
  induction l2 as [|o l2 IH] using rev_ind; intros F.
  - change (l1 ++ [StartSession id]) with (l1 ++ [StartSession id]). rewrite run_snoc. exists fresh. unfold session. cbn [log_step sessions find fst].
    rewrite String.eqb_refl. split; [reflexivity|]. split; [reflexivity|]. split; [reflexivity|]. intros i. reflexivity.
  - apply Forall_app in F as [F G]. inversion G as [|? ? N _]; subst. destruct (IH F) as (g & A & B & C & D).
    replace (l1 ++ StartSession id :: l2 ++ [o]) with ((l1 ++ StartSession id :: l2) ++ [o]) by (rewrite <- app_assoc; reflexivity).
    rewrite run_snoc, session_step; [|exact N|apply flags_inv]. rewrite A, rev_app_distr. cbn [rev app fst snd].
    destruct o as [up ty x|m|m t|i|i]; cbn [expected open_call]; try (exists g; auto; fail).
    destruct (log_message_lines g (rev l2) up ty x D) as (E1 & E2 & E3).
    eexists. split; [reflexivity|]. rewrite E1, E2, B. split; [reflexivity|]. split; [exact C|exact E3].
Qed.
Lemma stopped_inv raw l1 id l2 : Forall (fun o => ~ about id o) l2 ->
  session (log_run raw true (l1 ++ StopSession id :: l2)) id = None.
Proof.
  induction l2 as [|o l2 IH] using rev_ind; intros F.
  - rewrite run_snoc. unfold session. cbn [log_step sessions]. apply find_removed.
  - apply Forall_app in F as [F G]. inversion G as [|? ? N _]; subst. specialize (IH F).
    replace (l1 ++ StopSession id :: l2 ++ [o]) with ((l1 ++ StopSession id :: l2) ++ [o]) by (rewrite <- app_assoc; reflexivity).
    rewrite run_snoc, session_step; [|exact N|apply flags_inv]. rewrite IH. now destruct o.
Qed.

(** System and raw lines while there is no session. *)
Lemma no_sessions raw ses l : (forall id, ~ In (StartSession id) l) -> sessions (log_run raw ses l) = [].
Proof.
  induction l as [|o l IH] using rev_ind; intros N; [reflexivity|]. rewrite run_snoc.
  assert (E : sessions (log_run raw ses l) = []) by (apply IH; intros id H; apply (N id); apply in_app_iff; now left).
  destruct o as [up ty x|m|m t|id|id]; cbn [log_step].
  - cbn [sessions]. rewrite E. now destruct (session_logging _).
  - exact E.
  - destruct (log_raw _); exact E.
  - exfalso. apply (N id). apply in_app_iff. right. now left.
  - cbn [sessions]. now rewrite E.
Qed.
Lemma alone_inv raw ses l : ses = false \/ (forall id, ~ In (StartSession id) l) ->
  filter from_system (lines (own (log_run raw ses l))) = started :: sys_lines l /\
  raws (own (log_run raw ses l)) = if raw then raw_lines l else [].
Proof.
  induction l as [|o l IH] using rev_ind; intros H; [split; [reflexivity|now destruct raw]|]. rewrite run_snoc.
  assert (H' : ses = false \/ (forall id, ~ In (StartSession id) l)).
  { destruct H as [H|H]; [now left|right]. intros id I. apply (H id). apply in_app_iff. now left. }
  destruct (IH H') as [A B]. clear IH.
  destruct (flags_inv raw ses l) as [F1 F2].
  assert (Z0 : (if session_logging (log_run raw ses l) then List.length (sessions (log_run raw ses l)) else O) = O).
  { rewrite F2. destruct H' as [->|H']; [reflexivity|]. rewrite no_sessions by exact H'. now destruct ses. }
  assert (R1 : sys_lines (l ++ [o]) = sys_lines l ++ sys_lines [o]).
  { clear. induction l as [|p l IH]; [reflexivity|]. cbn [app sys_lines]. destruct p; rewrite ?IH; reflexivity. }
  assert (R2 : raw_lines (l ++ [o]) = raw_lines l ++ raw_lines [o]).
  { clear. induction l as [|p l IH]; [reflexivity|]. cbn [app raw_lines]. destruct p; rewrite ?IH; reflexivity. }
  rewrite R1, R2. set (s := log_run raw ses l) in *.
  destruct o as [up ty x|m|m t|id|id]; cbn [log_step sys_lines raw_lines]; rewrite ?app_nil_r; cbn [own].
  - destruct (own_inv raw ses l) as [_ K]. fold s in K. destruct (log_message_lines (own s) (rev l) up ty x K) as (E1 & E2 & _).
    fold (kind_of up). rewrite E1, E2. split; [|exact B]. rewrite filter_app, A. cbn [filter]. unfold from_system at 1.
    rewrite from_peer_line. cbn [negb]. apply app_nil_r.
  - rewrite Z0. cbn [times log_sys lines raws]. split; [|exact B]. now rewrite filter_app, A.
  - rewrite F1. destruct raw; [|split; assumption]. cbn [own]. rewrite Z0. cbn [times log_raw_line lines raws].
    split; [exact A|]. now rewrite B.
  - split; assumption.
  - split; assumption.
Qed.

(** The lookup map only grows. *)
Lemma format_keys m up ty x id : In id (List.map fst (fst (format_message m up ty x))) <->
  In id (List.map fst m) \/ (exists a, reads x = Call id a) \/ reads x = Result id.
Proof.
  unfold format_message. destruct (reads x) as [a|i a|i|]; cbn [fst]; rewrite ?keys_store.
  - split; [auto|]. intros [H|[(b & H)|H]]; [exact H|discriminate|discriminate].
  - split; [intros [->|H]; [right; left; now exists a|now left]|]. intros [H|[(b & H)|H]]; [now right|left; congruence|discriminate].
  - split; [intros [->|H]; [right; now right|now left]|]. intros [H|[(b & H)|H]]; [now right|discriminate|left; congruence].
  - split; [auto|]. intros [H|[(b & H)|H]]; [exact H|discriminate|discriminate].
Qed.
Lemma growth_inv raw ses l id : In id (List.map fst (map (own (log_run raw ses l)))) <-> seen l id.
Proof.
  induction l as [|o l IH] using rev_ind.
  - split; [easy|]. intros (up & ty & x & [] & _).
  - rewrite run_snoc. set (s := log_run raw ses l) in *.
    assert (K : seen (l ++ [o]) id <-> seen l id \/ (exists up ty x, o = Message up ty x /\ ((exists a, reads x = Call id a) \/ reads x = Result id))).
    { unfold seen. split.
      - intros (up & ty & x & I & R). apply in_app_iff in I as [I|[I|[]]]; [left; exists up, ty, x; now split|right; exists up, ty, x; now split].
      - intros [(up & ty & x & I & R)|(up & ty & x & -> & R)]; exists up, ty, x; (split; [apply in_app_iff|exact R]); [now left|right; now left]. }
    rewrite K, <- IH. clear K.
    destruct o as [up ty x|m|m t|i|i]; cbn [log_step]; cbn [own].
    + unfold log_message. pose proof (format_keys (map (own s)) (if up then ChargePoint else CentralSystem) ty x id) as F.
      destruct (format_message (map (own s)) (if up then ChargePoint else CentralSystem) ty x) as [m e]. cbn [fst map] in *.
      rewrite F. split; (intros [H|H]; [now left|right]).
      * exists up, ty, x. now split.
      * destruct H as (u & t & y & E & R). injection E as <- <- <-. exact R.
    + destruct (times_sys (if session_logging s then List.length (sessions s) else O) m (log_sys m (own s))) as (T1 & _). rewrite T1. cbn [log_sys map].
      split; [now left|]. intros [H|(u & t & y & E & _)]; [exact H|discriminate].
    + destruct (log_raw s); cbn [own].
      * destruct (times_raw (if session_logging s then List.length (sessions s) else O) t "" m (log_raw_line t m "" (own s))) as (T1 & _). rewrite T1. cbn [log_raw_line map].
        split; [now left|]. intros [H|(u & v & y & E & _)]; [exact H|discriminate].
      * split; [now left|]. intros [H|(u & v & y & E & _)]; [exact H|discriminate].
    + split; [now left|]. intros [H|(u & v & y & E & _)]; [exact H|discriminate].
    + split; [now left|]. intros [H|(u & v & y & E & _)]; [exact H|discriminate].
Qed.

(** Markup. *)
Lemma occ_app a s t : occurrences a (s ++ t)%string = (occurrences a s + occurrences a t)%nat.
Proof. induction s as [|b s IH]; [reflexivity|]. cbn [String.append occurrences]. rewrite IH. lia. Qed.
Lemma encode_clean a s : a = "<"%char \/ a = ">"%char -> occurrences a (html_encode s) = 0%nat.
Proof.
  intros A. induction s as [|b s IH]; [reflexivity|]. cbn [html_encode].
  destruct (Ascii.eqb_spec b "<") as [->|N]; [rewrite occ_app, IH; now destruct A as [-> | ->]|].
  destruct (Ascii.eqb_spec b ">") as [->|M]; [rewrite occ_app, IH; now destruct A as [-> | ->]|].
  cbn [occurrences]. rewrite IH. destruct (Ascii.eqb_spec a b) as [->|E]; [destruct A; contradiction|reflexivity].
Qed.
Lemma row_clean a ts e : a = "<"%char \/ a = ">"%char ->
  occurrences a (html_row ts e) = (18 + occurrences a ts + occurrences a (kind e))%nat.
Proof.
  intros A. unfold html_row. rewrite !occ_app, (encode_clean a (said e) A).
  destruct (from e), A as [-> | ->]; cbn [origin target quote occurrences Ascii.eqb]; cbn; lia.
Qed.
