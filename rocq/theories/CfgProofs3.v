(** Lemmas for CfgProperties.v: changing a key. *)
From Coq Require Import ZArith List Bool String Ascii Lia.
From Verif Require Import StrModel StrSpec StrProofs StrProperties JsonModel JsonProofs DtModel CfgSchemaLang CfgModel CfgSchema CfgTables CfgApi CfgSpec CfgProofs CfgProofs2.
Import ListNotations.
Local Open Scope list_scope.
Local Open Scope string_scope.
Local Open Scope Z_scope.

(** ** The tables, checked *)

Definition writer_dec : forall a b : writer, {a = b} + {a <> b}.
Proof.
  assert (D1 : forall a b : option nat, {a = b} + {a <> b}) by (decide equality; apply Nat.eq_dec).
  assert (D2 : forall a b : kind, {a = b} + {a <> b}) by (decide equality; apply Nat.eq_dec).
  assert (D3 : forall a b : guard, {a = b} + {a <> b}) by (decide equality; apply string_dec).
  assert (D4 : forall a b : rule, {a = b} + {a <> b}) by (decide equality; apply Z.eq_dec).
  decide equality; try apply string_dec; apply bool_dec.
Defined.

Definition needed_b (s k : string) : bool :=
  match assoc s sections with Some (SObject _ req _) => existsb (String.eqb k) req | _ => false end
  || existsb (fun e => String.eqb (fst e) s && String.eqb (snd e) k) defaulted.

Lemma needed_ok s k : needed_b s k = true -> needed s k.
Proof.
  unfold needed_b, needed. intros H. apply orb_true_iff in H. destruct H as [H|H].
  - left. destruct (assoc s sections) as [[]|] eqn:E; try discriminate H. apply assoc_in in E.
    apply existsb_exists in H. destruct H as (k' & I & ->%String.eqb_eq). eauto.
  - right. apply existsb_exists in H. destruct H as ([a b] & I & H). cbn [fst snd] in H.
    apply andb_true_iff in H. destruct H as [->%String.eqb_eq ->%String.eqb_eq]. exact I.
Qed.

Definition kind_fits (k : kind) (t : schema) : bool :=
  match k, t with
  | (KBool | KIfSingle), SBool => true
  | (KInt | KUnsigned), (SInt _ _ | SNumber _ _) => true
  | (KText | KShort _ | KPurposeText), SText _ _ => true
  | (KCommas | KColons | KPurposes), SArray (SText _ _) => true
  | KPretty, _ => true
  | _, _ => false
  end.

(** The section of a reader is there whenever the reader is used. *)
Definition placed (r : reader) : bool :=
  match r_profile r with Some p => String.eqb p (r_section r) | None => existsb (String.eqb (r_section r)) required_sections end.

Definition reader_ok (r : reader) : bool :=
  String.eqb (r_match r) (r_key r) && String.eqb (r_name r) (r_key r)
  && match type_of (r_section r) (r_key r) with Some t => kind_fits (r_kind r) t | None => false end
  && match r_need r with Must | OrFalseSection => placed r && needed_b (r_section r) (r_key r) | _ => true end
  && match matches (r_match r) readers with [r'] => String.eqb (r_match r') (r_match r) | _ => false end
  && negb (starts_ci "DefaultPriceText" (r_match r)) && negb (starts_ci "MeterPublicKey[" (r_match r)).

Definition writer_ok (wr : writer) : bool :=
  String.eqb (w_match wr) (w_key wr)
  && match type_of (w_section wr) (w_key wr) with Some t => rule_fits (w_key wr) (w_rule wr) t
       && match w_guard wr with IfThere k => kind_fits k t | _ => true end | None => false end
  && existsb (fun e => match e with (s, k, b) => String.eqb s (w_section wr) && String.eqb k (w_key wr) && (b || String.eqb k "CentralSystemURI") end) catalogue
  && match first_w (w_match wr) writers with Some wr' => if writer_dec wr' wr then true else false | None => false end
  && negb (starts_ci "DefaultPriceText" (w_match wr)) && negb (starts_ci "MeterPublicKey[" (w_match wr))
  && negb (ci_eq (w_match wr) "SecurityProfile")
  && match w_rule wr with
     | RAuthorizationKey => String.eqb (w_key wr) "AuthorizationKey" && String.eqb (w_section wr) "Security"
     | _ => negb (ci_eq (w_key wr) "AuthorizationKey")
       && match matches (w_match wr) readers with
          | [r] => String.eqb (r_section r) (w_section wr) && String.eqb (r_key r) (w_key wr) && placed r
                   && (negb (w_present wr) || match w_guard wr, r_need r with IfThere _, _ => true | _, May => true | _, _ => false end)
          | _ => false
          end
     end
  && match w_guard wr with IfProfile p => String.eqb p (w_section wr) && negb (w_present wr) | IfUnlockWritable => negb (w_present wr) | _ => true end
  && (negb (w_present wr) || match w_rule wr with RAuthorizationKey => false | _ => true end).

Lemma readers_ok : forallb (fun i => match i with Plain r => reader_ok r | _ => true end) readers = true.
Proof. vm_compute. reflexivity. Qed.
Lemma writers_ok : forallb (fun i => match i with Wanted wr => writer_ok wr | _ => true end) writers = true.
Proof. vm_compute. reflexivity. Qed.

Lemma reader_is_ok r : In (Plain r) readers -> reader_ok r = true.
Proof. intros H. pose proof readers_ok as F. rewrite forallb_forall in F. exact (F _ H). Qed.
Lemma writer_is_ok wr : In (Wanted wr) writers -> writer_ok wr = true.
Proof. intros H. pose proof writers_ok as F. rewrite forallb_forall in F. exact (F _ H). Qed.

Ltac ands H := repeat match type of H with (_ && _ = true) => apply andb_true_iff in H; let H' := fresh H in destruct H as [H H'] end.

Definition stands_in (x : cp) (s : string) : Prop :=
  In s required_sections \/ In s (profiles x) \/ obj_get s (running x) <> None.

Lemma placed_stands x r : placed r = true -> here x r = true -> stands_in x (r_section r).
Proof.
  unfold placed, here, stands_in. destruct (r_profile r) as [p|].
  - intros ->%String.eqb_eq H. unfold supports in H. apply existsb_exists in H. destruct H as (q & I & ->%String.eqb_eq). auto.
  - intros H _. apply existsb_exists in H. destruct H as (q & I & ->%String.eqb_eq). auto.
Qed.

Record writer_facts (wr : writer) (t : schema) : Prop := {
  wf_key : w_match wr = w_key wr;
  wf_type : type_of (w_section wr) (w_key wr) = Some t;
  wf_rule : rule_fits (w_key wr) (w_rule wr) t = true;
  wf_kind : match w_guard wr with IfThere k => kind_fits k t = true | _ => True end;
  wf_catalogue : exists b, In (w_section wr, w_key wr, b) catalogue /\ (b = true \/ w_key wr = "CentralSystemURI");
  wf_first : first_w (w_match wr) writers = Some wr;
  wf_price : starts_ci "DefaultPriceText" (w_match wr) = false;
  wf_public : starts_ci "MeterPublicKey[" (w_match wr) = false;
  wf_profile : ci_eq (w_match wr) "SecurityProfile" = false;
  wf_secret : w_rule wr = RAuthorizationKey -> w_key wr = "AuthorizationKey" /\ w_section wr = "Security" /\ w_present wr = false;
  wf_reader : w_rule wr <> RAuthorizationKey -> ci_eq (w_key wr) "AuthorizationKey" = false /\
    exists r, matches (w_match wr) readers = [r] /\ r_section r = w_section wr /\ r_key r = w_key wr /\ placed r = true /\
      (w_present wr = true -> (exists k, w_guard wr = IfThere k) \/ r_need r = May);
  wf_guard : match w_guard wr with IfProfile p => p = w_section wr /\ w_present wr = false | IfUnlockWritable => w_present wr = false | _ => True end }.

Lemma facts wr : In (Wanted wr) writers -> exists t, writer_facts wr t.
Proof.
  intros I. pose proof (writer_is_ok wr I) as H. unfold writer_ok in H. ands H.
  destruct (type_of (w_section wr) (w_key wr)) as [t|] eqn:T; [|discriminate].
  exists t. ands H8.
  constructor.
  - apply String.eqb_eq. exact H.
  - reflexivity || exact T.
  - exact H8.
  - destruct (w_guard wr); auto.
  - apply existsb_exists in H7. destruct H7 as ([[s k] b] & I7 & Q). ands Q.
    apply String.eqb_eq in Q, Q1. subst s k. exists b. split; [exact I7|]. apply orb_true_iff in Q0.
    destruct Q0 as [Q0|Q0]; [auto|right; apply String.eqb_eq; exact Q0].
  - destruct (first_w (w_match wr) writers) as [wr'|]; [|discriminate]. destruct (writer_dec wr' wr); [congruence|discriminate].
  - apply negb_true_iff. exact H5.
  - apply negb_true_iff. exact H4.
  - apply negb_true_iff. exact H3.
  - intros R. rewrite R in H2, H0. ands H2. apply String.eqb_eq in H2, H10. repeat split; auto.
    destruct (w_present wr); [discriminate H0|reflexivity].
  - intros R. destruct (w_rule wr); try congruence; ands H2; (split; [apply negb_true_iff; exact H2|]);
      (destruct (matches (w_match wr) readers) as [|r [|]]; try discriminate);
      exists r; split; try reflexivity; ands H10; apply String.eqb_eq in H10, H13; repeat split; auto;
      intros P; rewrite P in H11; cbn [negb orb] in H11; destruct (w_guard wr), (r_need r); try discriminate H11; eauto.
  - destruct (w_guard wr); auto.
    + ands H1. apply String.eqb_eq in H1. split; auto. destruct (w_present wr); [discriminate|reflexivity].
    + destruct (w_present wr); [discriminate|reflexivity].
Qed.

(** ** Reading a key that can be written *)

Lemma no_custom w x key : held (running x) "Custom" key = None -> else_custom w x key = Ret None.
Proof. intros H. unfold else_custom, custom_key. rewrite held_lookup, H. destruct (supports x "Custom"); reflexivity. Qed.

Lemma get_written w x key wr t r :
  writer_facts wr t -> matches (w_match wr) readers = [r] -> ci_eq key (w_match wr) = true ->
  get w x key = if here x r then read w x r else else_custom w x key.
Proof.
  intros F M E. unfold get. rewrite get_from_matches.
  - rewrite (matches_same _ _ _ E), M. cbn [filter]. destruct (here x r); reflexivity.
  - exact (starts_ci_other _ _ _ E (wf_public _ _ F)).
  - exact (starts_ci_other _ _ _ E (wf_price _ _ F)).
Qed.

Lemma set_written w x key text wr t :
  writer_facts wr t -> ci_eq key (w_match wr) = true -> set w x key text = as_set (write w x wr text).
Proof.
  intros F E. unfold set. apply set_from_first.
  - exact (starts_ci_other _ _ _ E (wf_price _ _ F)).
  - rewrite (first_w_same _ _ _ E). exact (wf_first _ _ F).
Qed.

(** ** Writing *)

Lemma write_cases w x wr t text s x' :
  writer_facts wr t -> write w x wr text = Ret (s, x') ->
  (exists v, means (w_key wr) t text v /\ (s = Accepted \/ s = RebootRequired) /\ apply_rule w x (w_rule wr) text = Ret (Store v s) /\
     (w_present wr = true -> held (running x) (w_section wr) (w_key wr) <> None) /\
     (match w_guard wr with IfProfile p => In p (profiles x) | IfThere _ => held (running x) (w_section wr) (w_key wr) <> None | _ => True end) /\
     x' = store w x (w_section wr) (w_key wr) v) \/
  (x' = x /\ (s = Rejected \/ s = NotSupported)) \/
  (x' = x /\ w_present wr = true /\ w_guard wr = Always /\ held (running x) (w_section wr) (w_key wr) = None).
Proof.
  intros F W. unfold write in W. destruct (check_guard w x wr) as [[g|]|e] eqn:G; [| |discriminate W].
  - injection W as <- <-. right. left. split; [reflexivity|]. unfold check_guard in G.
    destruct (w_guard wr); [discriminate G| | |].
    + destruct (lookup _ _ _); [|injection G as <-; auto]. destruct (text_of _ _ _ _); discriminate G.
    + destruct (supports x p); [discriminate G|]. injection G as <-; auto.
    + destruct (unlock_readonly w); [|discriminate G]. injection G as <-; auto.
  - assert (G' : match w_guard wr with IfProfile p => In p (profiles x) | IfThere _ => held (running x) (w_section wr) (w_key wr) <> None | _ => True end).
    { unfold check_guard in G. destruct (w_guard wr); auto.
      - rewrite held_lookup in G. destruct (held _ _ _); [discriminate|discriminate G].
      - unfold supports in G. destruct (existsb _ _) eqn:Q; [|discriminate G]. apply existsb_exists in Q. destruct Q as (q & I & ->%String.eqb_eq). exact I. }
    destruct (apply_rule w x (w_rule wr) text) as [[v s0|s0]|e] eqn:A; [| |discriminate W].
    + pose proof (rule_means _ _ _ _ _ _ _ _ (wf_rule _ _ F) A) as [M S]. rewrite held_lookup in W.
      destruct (w_present wr) eqn:P; [destruct (held (running x) (w_section wr) (w_key wr)) eqn:L|]; cbn [andb] in W; injection W as <- <-.
      * left. exists v. repeat split; auto; discriminate.
      * right. right. repeat split; auto. pose proof (wf_guard _ _ F) as Q. destruct (w_guard wr); auto; try congruence. destruct Q; congruence.
      * left. exists v. repeat split; auto; congruence.
    + injection W as <- <-. right. left. split; [reflexivity|]. left. eapply rule_refuses. exact A.
Qed.

(** The readers of the keys that take nothing but themselves. *)
Lemma get_absent w x key wr t :
  writer_facts wr t -> ci_eq key (w_match wr) = true -> held (running x) "Custom" key = None ->
  w_present wr = true -> w_guard wr = Always -> held (running x) (w_section wr) (w_key wr) = None -> get w x key = Ret None.
Proof.
  intros F E C P G L. destruct (wf_reader _ _ F) as (_ & r & M & S & K & _ & N).
  { intros R. apply (wf_secret _ _ F) in R. destruct R as (_ & _ & R). congruence. }
  rewrite (get_written _ _ _ _ _ _ F M E). destruct (here x r); [|apply no_custom; exact C].
  unfold read. rewrite held_lookup, S, K, L. destruct (N P) as [(k & Q)|Q]; [congruence|]. rewrite Q. reflexivity.
Qed.

(** The section of a written key is a required one, or its profile is supported. *)
Lemma written_stands w x key wr t v :
  writer_facts wr t -> ci_eq key (w_match wr) = true -> held (running x) "Custom" key = None ->
  get w x key = Ret v -> (v <> None \/ ci_eq key "AuthorizationKey" = true) -> stands_in x (w_section wr).
Proof.
  intros F E C G V.
  assert (D : w_rule wr = RAuthorizationKey \/ w_rule wr <> RAuthorizationKey) by (destruct (w_rule wr); (left; reflexivity) || (right; discriminate)).
  destruct D as [D|D].
  - apply (wf_secret _ _ F) in D. destruct D as (_ & -> & _). left. vm_compute. auto.
  - destruct (wf_reader _ _ F D) as (N & r & M & S & K & P & _).
    rewrite (get_written _ _ _ _ _ _ F M E) in G. destruct (here x r) eqn:H.
    + rewrite <- S. apply placed_stands; assumption.
    + rewrite (no_custom _ _ _ C) in G. injection G as <-. destruct V as [V|V]; [congruence|].
      rewrite (ci_replace _ _ _ E), (wf_key _ _ F), N in V. discriminate V.
Qed.

Lemma react_status w x key text asked e s o : react w x key text asked = (e, Ret (s, o)) -> s = Accepted \/ ci_eq key "SecurityProfile" = true.
Proof.
  unfold react, with_int, new_key. intros R.
  repeat match type of R with
         | (if ci_eq ?k "SecurityProfile" then _ else _) = _ => destruct (ci_eq k "SecurityProfile"); [right; reflexivity|]
         | context [match ?e with _ => _ end] => destruct e
         end; injection R; intros; subst; auto; try discriminate.
Qed.
