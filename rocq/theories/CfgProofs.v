(** Lemmas for CfgProperties.v: access to the configuration, the tables against the schemas. *)
From Coq Require Import ZArith List Bool String Ascii Lia.
From Verif Require Import StrModel StrSpec StrProofs StrProperties JsonModel DtModel CfgSchemaLang CfgModel CfgSchema CfgTables CfgApi CfgSpec.
Import ListNotations.
Local Open Scope list_scope.
Local Open Scope string_scope.
Local Open Scope Z_scope.

(** ** Objects *)

Lemma get_set k v o : obj_get k (obj_set k v o) = Some v.
Proof.
  induction o as [|[x y] o IH]; cbn [obj_set obj_get].
  - rewrite String.eqb_refl. reflexivity.
  - destruct (String.eqb_spec k x) as [->|N]; cbn [obj_get]; [rewrite String.eqb_refl; reflexivity|].
    destruct (str_lt k x); cbn [obj_get]; [rewrite String.eqb_refl; reflexivity|].
    destruct (String.eqb_spec k x); [congruence|exact IH].
Qed.

Lemma get_set_other k k' v o : k' <> k -> obj_get k' (obj_set k v o) = obj_get k' o.
Proof.
  intros N. induction o as [|[x y] o IH]; cbn [obj_set obj_get].
  - destruct (String.eqb_spec k' k); [congruence|reflexivity].
  - destruct (String.eqb_spec k x) as [->|Nx]; cbn [obj_get]; [destruct (String.eqb_spec k' x); [congruence|reflexivity]|].
    destruct (str_lt k x); cbn [obj_get]; [destruct (String.eqb_spec k' k); [congruence|reflexivity]|].
    rewrite IH. reflexivity.
Qed.

Lemma set_forall (P : string * json -> Prop) k v o : P (k, v) -> Forall P o -> Forall P (obj_set k v o).
Proof.
  intros Pk. induction o as [|[x y] o IH]; intros F; cbn [obj_set]; [auto|].
  inversion F as [|a l Pa Pl]; subst. destruct (String.eqb_spec k x) as [->|N]; [auto|].
  destruct (str_lt k x); auto.
Qed.

(** The members that stay, and the new one. *)
Lemma set_members k v o e : In e (obj_set k v o) -> e = (k, v) \/ In e o.
Proof.
  induction o as [|[x y] o IH]; cbn [obj_set].
  - intros [H|[]]; auto.
  - destruct (String.eqb_spec k x) as [->|N]; [intros [H|H]; auto; right; right; exact H|].
    destruct (str_lt k x); [intros [H|H]; auto|intros [H|H]; [right; left; exact H|]].
    destruct (IH H); auto. right. right. assumption.
Qed.

(** ** One key of the configuration *)

Lemma held_lookup c s k : lookup c s k = held c s k.
Proof. unfold lookup, held, section. destruct (obj_get s c) as [[]|]; reflexivity. Qed.

Lemma section_put_other c s k v s' : s' <> s -> obj_get s' (put c s k v) = obj_get s' c.
Proof. intros N. unfold put. destruct (section c s); apply get_set_other; exact N. Qed.

Lemma section_put c s k v :
  obj_get s (put c s k v) = Some (JObj (obj_set k v (match section c s with Some l => l | None => [] end))).
Proof. unfold put. destruct (section c s); rewrite get_set; reflexivity. Qed.

Lemma got_put c s k v : got c (put c s k v) s k v.
Proof.
  split; [|split].
  - unfold held. rewrite section_put. apply get_set.
  - intros s' k' N. unfold held. destruct (string_dec s' s) as [->|Ns].
    + rewrite section_put. assert (Nk : k' <> k) by congruence. rewrite (get_set_other _ _ _ _ Nk).
      unfold section. destruct (obj_get s c) as [[]|]; reflexivity.
    + rewrite section_put_other by exact Ns. reflexivity.
  - intros s' N. apply section_put_other. exact N.
Qed.

Lemma changed_store w x s k v : changed w x (store w x s k v) s k v.
Proof.
  unfold changed, store. cbn [running user profiles measurands]. split; [apply got_put|]. split; auto.
  destruct (disk_ok w); [apply got_put|reflexivity].
Qed.

(** ** Names *)

Lemma ci_same a b : ci_eq a b = true <-> same_text a b.
Proof. apply iequals_same. Qed.

Lemma ci_sym a b : ci_eq a b = ci_eq b a.
Proof. apply iequals_sym. Qed.

Lemma ci_replace a b c : ci_eq a b = true -> ci_eq a c = ci_eq b c.
Proof.
  intros E. unfold ci_eq in *. destruct (iequals b c) eqn:F.
  - exact (iequals_trans _ _ _ E F).
  - destruct (iequals a c) eqn:G; [|reflexivity].
    rewrite <- F. symmetry. apply (iequals_trans b a c); [rewrite iequals_sym; exact E|exact G].
Qed.

Lemma starts_with_ok p s : starts_with p s = true <-> is_beginning p s.
Proof.
  unfold is_beginning. revert s. induction p as [|a p IH]; intros s; cbn [starts_with].
  - split; [intros _; exists s; reflexivity|reflexivity].
  - destruct s as [|b s].
    + split; [discriminate|intros (r & H); discriminate].
    + rewrite andb_true_iff, Ascii.eqb_eq, IH. split.
      * intros (-> & r & ->). exists r. reflexivity.
      * intros (r & H). cbn in H. injection H as -> ->. split; [reflexivity|]. exists r. reflexivity.
Qed.

(** A text beginning so, in any case. *)
Definition starts_ci (p s : string) : bool := ci_eq p (take (String.length p) s).

Lemma starts_with_take p s : starts_with p s = true -> take (String.length p) s = p.
Proof. intros H. apply starts_with_ok in H. destruct H as (r & ->). apply take_app. Qed.

Lemma iequals_take n : forall a b, iequals a b = true -> iequals (take n a) (take n b) = true.
Proof.
  induction n as [|n IH]; intros [|x a] [|y b]; cbn; intros H; try reflexivity; try discriminate H.
  apply andb_true_iff in H. destruct H as [H1 H2]. rewrite H1. cbn. apply IH. exact H2.
Qed.

Lemma starts_ci_other p key k : ci_eq key k = true -> starts_ci p k = false -> starts_with p key = false.
Proof.
  intros E S. destruct (starts_with p key) eqn:H; [|reflexivity]. rewrite <- S. symmetry.
  unfold starts_ci. pose proof (starts_with_take _ _ H) as T. rewrite <- T at 1. apply iequals_take. exact E.
Qed.

(** ** What the tables select *)

Fixpoint matches (key : string) (items : list item) : list reader :=
  match items with
  | [] => []
  | Plain r :: rest => if ci_eq key (r_match r) then r :: matches key rest else matches key rest
  | _ :: rest => matches key rest
  end.

Lemma matches_same key k items : ci_eq key k = true -> matches key items = matches k items.
Proof. intros E. induction items as [|[r| |] items IH]; cbn; auto. rewrite (ci_replace _ _ _ E), IH. reflexivity. Qed.

Lemma matches_in key items r : In r (matches key items) -> In (Plain r) items /\ ci_eq key (r_match r) = true.
Proof.
  induction items as [|[r'| |] items IH]; cbn; [tauto| | |]; try (intros H; apply IH in H; tauto).
  destruct (ci_eq key (r_match r')) eqn:E; intros H; [|apply IH in H; tauto].
  destruct H as [->|H]; [auto|apply IH in H; tauto].
Qed.

Definition here (x : cp) (r : reader) : bool := match r_profile r with Some p => supports x p | None => true end.
Definition else_custom (w : world) (x : cp) (key : string) : result (option kv) :=
  Ret (if supports x "Custom" then custom_key w x key else None).

Lemma get_from_matches w x key items :
  starts_with "MeterPublicKey[" key = false -> starts_with "DefaultPriceText" key = false ->
  get_from w x items key =
  match filter (here x) (matches key items) with r :: _ => read w x r | [] => else_custom w x key end.
Proof.
  intros S1 S2. induction items as [|[r| |] items IH]; cbn [get_from matches].
  - reflexivity.
  - fold (here x r). destruct (ci_eq key (r_match r)); cbn [filter]; [|rewrite andb_false_r; exact IH].
    rewrite andb_true_r. destruct (here x r); [reflexivity|exact IH].
  - rewrite S1. exact IH.
  - rewrite S2, andb_false_r. exact IH.
Qed.

Fixpoint first_w (key : string) (items : list witem) : option writer :=
  match items with
  | Wanted wr :: rest => if ci_eq key (w_match wr) then Some wr else first_w key rest
  | WPriceText :: rest => first_w key rest
  | _ => None
  end.

Lemma first_w_same key k items : ci_eq key k = true -> first_w key items = first_w k items.
Proof. intros E. induction items as [|[wr| | |n] items IH]; cbn; auto. rewrite (ci_replace _ _ _ E), IH. reflexivity. Qed.

Lemma first_w_in key items wr : first_w key items = Some wr -> In (Wanted wr) items /\ ci_eq key (w_match wr) = true.
Proof.
  induction items as [|[w0| | |n] items IH]; cbn; intros H; try discriminate H; [|apply IH in H; tauto].
  destruct (ci_eq key (w_match w0)) eqn:E; [injection H as ->; auto|apply IH in H; tauto].
Qed.

Definition as_set (r : result (status * cp)) : result (option status * cp) :=
  match r with Ret (s, x') => Ret (Some s, x') | Throws e => Throws e end.

Lemma set_from_first w x key text items wr :
  starts_with "DefaultPriceText" key = false -> first_w key items = Some wr ->
  set_from w x items key text = as_set (write w x wr text).
Proof.
  intros S. induction items as [|[w0| | |n] items IH]; cbn [first_w set_from]; intros H; try discriminate H.
  - destruct (ci_eq key (w_match w0)); [injection H as ->; reflexivity|apply IH; exact H].
  - rewrite S. apply IH. exact H.
Qed.

(** What set can do. *)
Inductive set_cases (w : world) (x : cp) (key text : string) : result (option status * cp) -> Prop :=
| set_write wr : In (Wanted wr) writers -> ci_eq key (w_match wr) = true ->
    set_cases w x key text (as_set (write w x wr text))
| set_price : starts_with "DefaultPriceText" key = true -> set_cases w x key text (as_set (write_price w x key text))
| set_custom : lookup (running x) "Custom" key <> None ->
    set_cases w x key text (as_set (Ret (write_custom w x key text)))
| set_nothing : ci_eq key "SecurityProfile" = true -> set_cases w x key text (Ret (Some Accepted, x))
| set_unknown : set_cases w x key text (Ret (None, x)).

Lemma set_from_cases w x key text items :
  (forall i, In i items -> In i writers) -> set_cases w x key text (set_from w x items key text).
Proof.
  induction items as [|[w0| | |n] items IH]; cbn [set_from]; intros H.
  - apply set_unknown.
  - destruct (ci_eq key (w_match w0)) eqn:E.
    + apply set_write; [apply H; left; reflexivity|exact E].
    + apply IH. intros i Hi. apply H. right. exact Hi.
  - destruct (starts_with "DefaultPriceText" key) eqn:E.
    + apply set_price. exact E.
    + apply IH. intros i Hi. apply H. right. exact Hi.
  - destruct (lookup (running x) "Custom" key) eqn:E.
    + pose proof (set_custom w x key text) as C. rewrite E in C. cbn [as_set] in C.
      destruct (write_custom w x key text). apply C. discriminate.
    + apply IH. intros i Hi. apply H. right. exact Hi.
  - destruct (ci_eq key n) eqn:E.
    + apply set_nothing. assert (N : n = "SecurityProfile").
      { assert (Q : forall i, In i writers -> match i with WNothing m => m = "SecurityProfile" | _ => True end).
        { assert (F : forallb (fun i => match i with WNothing m => String.eqb m "SecurityProfile" | _ => true end) writers = true)
            by (vm_compute; reflexivity).
          rewrite forallb_forall in F. intros i Hi. apply F in Hi. destruct i; auto. apply String.eqb_eq. exact Hi. }
        apply (Q (WNothing n)). apply H. left. reflexivity. }
      rewrite <- N. exact E.
    + apply IH. intros i Hi. apply H. right. exact Hi.
Qed.

Lemma set_is w x key text : set_cases w x key text (set w x key text).
Proof. apply set_from_cases. auto. Qed.

(** ** The tables against the schemas *)

Fixpoint assoc {A} (k : string) (l : list (string * A)) : option A :=
  match l with [] => None | (k', a) :: l' => if String.eqb k k' then Some a else assoc k l' end.

Lemma assoc_in {A} k (l : list (string * A)) a : assoc k l = Some a -> In (k, a) l.
Proof.
  induction l as [|[k' b] l IH]; cbn; [discriminate|]. destruct (String.eqb_spec k k') as [->|N]; intros H.
  - injection H as ->. auto.
  - auto.
Qed.

Definition type_of (s k : string) : option schema :=
  match assoc s sections with Some (SObject _ _ props) => assoc k props | _ => None end.

Lemma type_declared s k t : type_of s k = Some t -> declared s k t.
Proof.
  unfold type_of, declared. destruct (assoc s sections) as [[]|] eqn:E; try discriminate.
  intros H. apply assoc_in in E, H. eauto.
Qed.

(** Every section and key is declared once. *)
Fixpoint once (l : list string) : bool :=
  match l with [] => true | k :: l' => negb (existsb (String.eqb k) l') && once l' end.

Lemma once_assoc {A} (l : list (string * A)) k a : once (map fst l) = true -> In (k, a) l -> assoc k l = Some a.
Proof.
  induction l as [|[k' b] l IH]; cbn; [tauto|]. intros O [H|H].
  - injection H as -> ->. rewrite String.eqb_refl. reflexivity.
  - apply andb_true_iff in O. destruct O as [O1 O2]. destruct (String.eqb_spec k k') as [->|N]; [|auto].
    apply negb_true_iff in O1. assert (existsb (String.eqb k') (map fst l) = true); [|congruence].
    apply existsb_exists. exists k'. split; [apply (in_map fst) in H; exact H|apply String.eqb_refl].
Qed.

Definition props_of (t : schema) : list (string * schema) := match t with SObject _ _ p => p | _ => [] end.

Lemma declared_type s k t : declared s k t <-> type_of s k = Some t.
Proof.
  split; [|apply type_declared]. intros (c & r & p & H & K).
  assert (E : assoc s sections = Some (SObject c r p)).
  { apply once_assoc; [vm_compute; reflexivity|exact H]. }
  unfold type_of. rewrite E. apply once_assoc; [|exact K].
  assert (Q : forallb (fun e => once (map fst (props_of (snd e)))) sections = true) by (vm_compute; reflexivity).
  rewrite forallb_forall in Q. exact (Q _ H).
Qed.
