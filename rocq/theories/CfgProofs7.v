(** Lemmas for CfgProperties.v: answers, and the keys that take every value of their type. *)
From Coq Require Import ZArith List Bool String Ascii Lia.
From Verif Require Import StrModel StrSpec StrProofs StrProperties JsonModel JsonProofs DtModel CfgSchemaLang CfgModel CfgSchema CfgTables CfgApi CfgSpec CfgProofs CfgProofs2 CfgProofs3 CfgProofs4 CfgProofs5 CfgProofs6.
Import ListNotations.
Local Open Scope string_scope.
Local Open Scope list_scope.
Local Open Scope Z_scope.

(** ** Answers *)

Definition is_answer (e : effect) : bool := match e with Respond _ | RespondError _ => true | _ => false end.
Definition answers_in (l : list effect) : list effect := filter is_answer l.

Lemma answers_app a b : answers_in (a ++ b) = answers_in a ++ answers_in b.
Proof. apply filter_app. Qed.

Lemma notify_silent w s key text : answers_in (notify w s key text) = [].
Proof. unfold notify. destruct s; try reflexivity. destruct (existsb _ _); [reflexivity|]. destruct (generic w); reflexivity. Qed.

Lemma react_answers w x key text e r :
  react w x key text true = (e, r) ->
  answers_in e = match r with Ret (s, false) => [Respond s] | _ => [] end.
Proof.
  unfold react, with_int, new_key, new_profile. intros R.
  repeat match type of R with
         | context [match ?c with _ => _ end] => destruct c
         end;
  try (injection R as <- <-; reflexivity); try discriminate R.
Qed.

Lemma change_answers w x key text x' e r :
  change w x key text true = (x', e, r) ->
  answers_in e = match r with Ret (s, false) => [Respond s] | _ => [] end.
Proof.
  unfold change. intros C.
  destruct (get w x key) as [v|]; [|injection C as <- <- <-; reflexivity].
  assert (Q : forall s0 x0, set w x key text = Ret (s0, x0) ->
    match s0 with
    | Some Accepted =>
        match react w x0 key text true with
        | (e0, Throws why) => (x0, e0, Throws why)
        | (e0, Ret (s', open)) => (x0, e0 ++ notify w s' key text, Ret (s', open))
        end
    | Some s' => (x0, [] ++ notify w s' key text, Ret (s', true))
    | None => (x0, [] ++ notify w Rejected key text, Ret (Rejected, true))
    end = (x', e, r) -> answers_in e = match r with Ret (s, false) => [Respond s] | _ => [] end).
  { intros s0 x0 _ H. destruct s0 as [[]|]; try (injection H as <- <- <-; reflexivity).
    destruct (react w x0 key text true) as [e0 [[s' o]|why]] eqn:R; injection H as <- <- <-.
    - rewrite answers_app, notify_silent, app_nil_r. exact (react_answers _ _ _ _ _ _ R).
    - exact (react_answers _ _ _ _ _ _ R). }
  destruct (match v with Some _ => true | None => ci_eq key "AuthorizationKey" end);
    [|injection C as <- <- <-; reflexivity].
  destruct (ci_ne key "AuthorizationKey").
  - destruct v as [k|]; [|injection C as <- <- <-; reflexivity].
    destruct (kv_readonly k); [injection C as <- <- <-; reflexivity|].
    destruct (set w x key text) as [[s0 x0]|] eqn:S; [|injection C as <- <- <-; reflexivity]. exact (Q _ _ eq_refl C).
  - destruct (set w x key text) as [[s0 x0]|] eqn:S; [|injection C as <- <- <-; reflexivity]. exact (Q _ _ eq_refl C).
Qed.

Lemma on_change_answers w x key text x' e :
  on_change w x key text = (x', e) ->
  exists e0 r, change w x key text true = (x', e0, r) /\
    answers_in e = [match r with Ret (s, _) => Respond s | Throws why => RespondError (error_code why) end].
Proof.
  unfold on_change. destruct (change w x key text true) as [[x0 e0] r] eqn:C. pose proof (change_answers _ _ _ _ _ _ _ C) as A.
  destruct r as [[s [|]]|why]; intros H; injection H as <- <-; eexists _, _; (split; [reflexivity|]);
    rewrite ?answers_app, ?A; reflexivity.
Qed.

Lemma answered_change w x key text x' e s :
  on_change w x key text = (x', e) -> In (Respond s) e -> exists e0 o, change w x key text true = (x', e0, Ret (s, o)).
Proof.
  intros O I. destruct (on_change_answers _ _ _ _ _ _ O) as (e0 & r & C & A).
  assert (Q : In (Respond s) (answers_in e)) by (apply filter_In; auto). rewrite A in Q. destruct Q as [Q|[]].
  destruct r as [[s' o]|why]; [|discriminate Q]. injection Q as ->. eauto.
Qed.

Lemma change_answered w x key text x' e0 s o :
  change w x key text true = (x', e0, Ret (s, o)) -> exists e, on_change w x key text = (x', e) /\ In (Respond s) e.
Proof.
  intros C. destruct (on_change w x key text) as [x1 e] eqn:O. destruct (on_change_answers _ _ _ _ _ _ O) as (e1 & r & C' & A).
  rewrite C in C'. injection C' as <- <- <-. exists e. split; [reflexivity|].
  assert (Q : In (Respond s) (answers_in e)) by (rewrite A; left; reflexivity). apply filter_In in Q. tauto.
Qed.

(** ** Keys with a setter of their own *)

Definition read_as (r : rule) : kind :=
  match r with
  | RBool | RAnyBool => KBool | RInt _ _ | RPhases => KInt | RPurposes => KPurposeText | RJson => KPretty | _ => KText
  end.
Definition kind_eqb (a b : kind) : bool :=
  match a, b with
  | KBool, KBool | KInt, KInt | KText, KText | KPurposeText, KPurposeText | KPretty, KPretty => true
  | _, _ => false
  end.
Lemma kind_eqb_eq a b : kind_eqb a b = true -> a = b.
Proof. destruct a, b; try discriminate; reflexivity. Qed.

Definition tidy (wr : writer) : bool :=
  match w_rule wr with
  | RAuthorizationKey => true
  | _ =>
      match matches (w_match wr) readers with
      | [r] =>
          kind_eqb (r_kind r) (read_as (w_rule wr)) && String.eqb (r_name r) (w_key wr) &&
          match w_guard wr with
          | Always => true
          | IfThere k => kind_eqb k (r_kind r) && match r_need r with May => true | _ => false end
          | IfProfile p => match r_profile r with Some q => String.eqb p q | None => false end
          | IfUnlockWritable => match r_access r with ByCoreSchema => true | _ => false end
          end
      | _ => false
      end
  end.
Lemma all_tidy : forallb (fun i => match i with Wanted wr => tidy wr | _ => true end) writers = true.
Proof. vm_compute. reflexivity. Qed.

Record reading (wr : writer) (r : reader) : Prop := {
  rd_only : matches (w_match wr) readers = [r];
  rd_section : r_section r = w_section wr;
  rd_key : r_key r = w_key wr;
  rd_name : r_name r = w_key wr;
  rd_kind : r_kind r = read_as (w_rule wr);
  rd_guard : match w_guard wr with
             | Always => True
             | IfThere k => k = r_kind r /\ r_need r = May
             | IfProfile p => r_profile r = Some p
             | IfUnlockWritable => r_access r = ByCoreSchema
             end;
  rd_present : w_present wr = true -> r_need r = May;
  rd_secret : ci_eq (w_key wr) "AuthorizationKey" = false }.

Lemma readings wr t : In (Wanted wr) writers -> writer_facts wr t -> w_rule wr <> RAuthorizationKey -> exists r, reading wr r.
Proof.
  intros I F N. destruct (wf_reader _ _ F N) as (S & r & M & Rs & Rk & _ & P). exists r.
  assert (T : tidy wr = true) by (pose proof all_tidy as A; rewrite forallb_forall in A; exact (A _ I)).
  unfold tidy in T. rewrite M in T.
  assert (T' : kind_eqb (r_kind r) (read_as (w_rule wr)) && String.eqb (r_name r) (w_key wr) &&
          match w_guard wr with
          | Always => true
          | IfThere k => kind_eqb k (r_kind r) && match r_need r with May => true | _ => false end
          | IfProfile p => match r_profile r with Some q => String.eqb p q | None => false end
          | IfUnlockWritable => match r_access r with ByCoreSchema => true | _ => false end
          end = true) by (destruct (w_rule wr); try exact T; congruence).
  clear T. ands T'. constructor; auto.
  - apply String.eqb_eq. assumption.
  - apply kind_eqb_eq. assumption.
  - destruct (w_guard wr); auto.
    + ands T'0. apply kind_eqb_eq in T'0. destruct (r_need r); try discriminate. auto.
    + destruct (r_profile r); [|discriminate]. apply String.eqb_eq in T'0. congruence.
    + destruct (r_access r); try discriminate. reflexivity.
  - intros W. destruct (P W) as [(k & G)|G]; [|exact G]. rewrite G in T'0. ands T'0. destruct (r_need r); try discriminate. reflexivity.
Qed.

Lemma get_reads w x key wr t r : no_shadow x -> writer_facts wr t -> reading wr r -> ci_eq key (w_match wr) = true ->
  get w x key = if here x r then read w x r else Ret None.
Proof.
  intros N F R E. rewrite (get_written _ _ _ _ _ _ F (rd_only _ _ R) E). destruct (here x r); [reflexivity|].
  apply no_custom. exact (not_shadowed _ _ _ _ N F E).
Qed.

Lemma write_total w x key wr t r v text :
  no_shadow x -> writer_facts wr t -> reading wr r -> ci_eq key (w_match wr) = true ->
  get w x key = Ret (Some v) -> kv_readonly v = false ->
  write w x wr text =
  match apply_rule w x (w_rule wr) text with
  | Throws e => Throws e
  | Ret (Answer s) => Ret (s, x)
  | Ret (Store j s) => Ret (s, store w x (w_section wr) (w_key wr) j)
  end.
Proof.
  intros N F R E G RO. rewrite (get_reads _ _ _ _ _ _ N F R E) in G. destruct (here x r) eqn:H; [|discriminate G].
  unfold read in G. rewrite held_lookup, (rd_section _ _ R), (rd_key _ _ R) in G.
  assert (Hd : r_need r = May -> exists j tx, held (running x) (w_section wr) (w_key wr) = Some j /\ text_of w (running x) (r_kind r) j = Ret tx).
  { intros M. destruct (held _ _ _) as [j|]; [|rewrite M in G; discriminate G].
    destruct (text_of w (running x) (r_kind r) j) as [tx|] eqn:Tx; [eauto|discriminate G]. }
  unfold write. assert (C : check_guard w x wr = Ret None).
  { unfold check_guard. pose proof (rd_guard _ _ R) as Gd. destruct (w_guard wr) as [|k|p|]; [reflexivity| | |].
    - destruct Gd as [-> M]. destruct (Hd M) as (j & tx & A & B). rewrite held_lookup, A, B. reflexivity.
    - unfold here in H. rewrite Gd in H. rewrite H. reflexivity.
    - assert (U : readonly w (r_access r) = false).
      { destruct (held _ _ _) as [j|].
        - destruct (text_of _ _ _ _) as [tx|]; [|discriminate G]. destruct (as_value tx); [|discriminate G]. injection G as <-. exact RO.
        - unfold type_error in G. destruct (r_need r); [discriminate G|discriminate G| | |].
          + injection G as <-. exact RO.
          + destruct (section _ _); [discriminate G|]. injection G as <-. exact RO.
          + injection G as <-. exact RO. }
      rewrite Gd in U. cbn [readonly] in U. rewrite U. reflexivity. }
  rewrite C. destruct (apply_rule w x (w_rule wr) text) as [[j s|s]|e]; try reflexivity.
  destruct (w_present wr) eqn:P; [|reflexivity]. destruct (Hd (rd_present _ _ R P)) as (j0 & tx & A & _). rewrite held_lookup, A. reflexivity.
Qed.

(** A change of a key that is reported as writable. *)
Lemma change_total w x key wr t r v text asked :
  proper x -> no_shadow x -> In (Wanted wr) writers -> writer_facts wr t -> reading wr r -> ci_eq key (w_match wr) = true ->
  get w x key = Ret (Some v) -> kv_readonly v = false ->
  match apply_rule w x (w_rule wr) text with
  | Throws e => change w x key text asked = (x, [], Throws e)
  | Ret (Answer s) => change w x key text asked = (x, [], Ret (s, true))
  | Ret (Store j s) => exists e o, change w x key text asked = (store w x (w_section wr) (w_key wr) j, e, Ret (s, o))
  end.
Proof.
  intros P N I F R E G RO. pose proof (write_total _ _ _ _ _ _ _ text N F R E G RO) as W.
  pose proof (set_written w x key text _ _ F E) as S. rewrite W in S. clear W.
  assert (Nk : ci_ne key "AuthorizationKey" = true).
  { destruct (ci_ne key "AuthorizationKey") eqn:Q; [reflexivity|]. apply ne_false in Q. subst key.
    pose proof (rd_secret _ _ R) as Z. rewrite <- (wf_key _ _ F), ci_sym, E in Z. discriminate Z. }
  destruct (apply_rule w x (w_rule wr) text) as [[j s|s]|e] eqn:A; cbn [as_set] in S.
  - destruct (change w x key text asked) as [[x' e] res] eqn:C.
    pose proof (rule_means _ _ _ _ _ _ _ _ (wf_rule _ _ F) A) as [M St].
    pose proof C as C0. unfold change in C. rewrite G, Nk, RO, S in C.
    destruct (change_all _ _ _ _ _ _ _ _ P N C0) as (_ & _ & D).
    destruct St as [-> | ->].
    + destruct (react w (store w x (w_section wr) (w_key wr) j) key text asked) as [e0 [[s' o]|why]] eqn:Re.
      * injection C as <- <- <-. exists (e0 ++ notify w s' key text), o.
        destruct (react_status _ _ _ _ _ _ _ _ Re) as [-> |Q]; [reflexivity|].
        rewrite (ci_replace _ _ _ E), (wf_profile _ _ F) in Q. discriminate Q.
      * exfalso. injection C as <- <- <-.
        assert (P' : proper (store w x (w_section wr) (w_key wr) j)) by exact (proj1 (change_all _ _ _ _ _ _ _ _ P N C0)).
        pose proof (got_put (running x) (w_section wr) (w_key wr) j) as (G1 & _).
        destruct (react_fine w (store w x (w_section wr) (w_key wr) j) key text asked P') as (e1 & o1 & Q).
        -- rewrite (ci_replace _ _ _ E). exact (wf_profile _ _ F).
        -- intros K. rewrite (ci_replace _ _ _ E), (wf_key _ _ F), (rd_secret _ _ R) in K. discriminate K.
        -- intros K t'. assert (H : first_w "NextTimeOffsetTransitionDateTime" writers = Some (Writer "NextTimeOffsetTransitionDateTime" Always RFuture "CostAndPrice" "NextTimeOffsetTransitionDateTime" false)) by (vm_compute; reflexivity).
           rewrite (one_writer _ _ _ _ _ F E K H) in *. cbn [w_section w_key w_rule store running] in *. rewrite G1. intros X. injection X as ->.
           cbn [apply_rule] in A. destruct (from_rfc3339 text) eqn:Tm; [|discriminate A]. destruct (now w <? z); [|discriminate A]. injection A as <-. congruence.
        -- rewrite Re in Q. discriminate Q.
    + injection C as <- <- <-. eauto.
  - pose proof (rule_refuses _ _ _ _ _ A) as ->. unfold change. rewrite G, Nk, RO, S. reflexivity.
  - unfold change. rewrite G, Nk, RO, S. reflexivity.
Qed.

Lemma change_decided w x key wr t r v text :
  proper x -> no_shadow x -> In (Wanted wr) writers -> writer_facts wr t -> reading wr r -> ci_eq key (w_match wr) = true ->
  get w x key = Ret (Some v) -> kv_readonly v = false ->
  forall s, s = Accepted \/ s = RebootRequired ->
  ((exists x' e, on_change w x key text = (x', e) /\ In (Respond s) e) <-> exists j, apply_rule w x (w_rule wr) text = Ret (Store j s)).
Proof.
  intros P N I F R E G RO s S. pose proof (change_total _ _ _ _ _ _ _ text true P N I F R E G RO) as C. split.
  - intros (x' & e & O & A). destruct (answered_change _ _ _ _ _ _ _ O A) as (e0 & o & C'). rewrite C' in C.
    destruct (apply_rule w x (w_rule wr) text) as [[j s0|s0]|why] eqn:Ru.
    + destruct C as (e1 & o1 & C). inversion C; subst; eauto.
    + inversion C; subst. pose proof (rule_refuses _ _ _ _ _ Ru) as ->. destruct S; discriminate.
    + discriminate C.
  - intros (j & A). rewrite A in C. destruct C as (e0 & o & C). destruct (change_answered _ _ _ _ _ _ _ _ C) as (e & O & Q). eauto.
Qed.
