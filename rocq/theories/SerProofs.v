(** Proofs about the conversions to and from JSON. *)
From Coq Require Import String ZArith List Bool Lia.
From Verif Require Import StrModel StrProofs JsonModel JsonProofs EnumModel EnumProperties DtModel DtSpec DtProofs SerModel SerTables SerSpec.
Import ListNotations.
Local Open Scope string_scope.
Local Open Scope list_scope.
Local Open Scope Z_scope.

(** ** Lists *)
Lemma all_some_iff : forall {A B} (f : A -> option B) l r, all_some (map f l) = Some r <-> Forall2 (fun x y => f x = Some y) l r.
Proof.
  induction l as [|x l IH]; intros r; cbn.
  - split; intros H; [injection H as <-; constructor|inversion H; reflexivity].
  - destruct (f x) as [y|] eqn:E; [|split; intros H; [discriminate|inversion H; congruence]]. split; intros H.
    + destruct (all_some (map f l)) as [q|] eqn:Q; [|discriminate]. injection H as <-. constructor; [exact E|]. apply IH. reflexivity.
    + inversion H as [|x' y' l' r' E' T]; subst. apply IH in T. rewrite T. congruence.
Qed.
Lemma forall2_combine : forall {A B} (R : A -> B -> Prop) a b, List.length a = List.length b -> (forall x y, In (x, y) (combine a b) -> R x y) -> Forall2 R a b.
Proof.
  induction a as [|x a IH]; intros [|y b] L H; try discriminate L; constructor; [apply H; left; reflexivity|]. apply IH; [injection L; auto|]. intros. apply H. right. assumption.
Qed.
Lemma forall2_in : forall {A B} (R : A -> B -> Prop) a b x y, Forall2 R a b -> In (x, y) (combine a b) -> R x y.
Proof. induction 1 as [|u v a b H T IH]; cbn; [tauto|]. intros [E|I]; [injection E as <- <-; exact H|auto]. Qed.
Lemma forall2_length : forall {A B} (R : A -> B -> Prop) a b, Forall2 R a b -> List.length a = List.length b.
Proof. induction 1; cbn; auto. Qed.
Lemma combine_map_r : forall {A B C} (g : B -> C) (a : list A) b x y, In (x, y) (combine a (map g b)) -> exists z, In (x, z) (combine a b) /\ y = g z.
Proof. induction a as [|u a IH]; intros [|v b] x y; cbn; try tauto. intros [E|I]; [injection E as <- <-; eauto|]. destruct (IH _ _ _ I) as (z&Z&->). eauto. Qed.
Lemma combine_self : forall {A C} (g : A -> C) (a : list A) x y, In (x, y) (combine a (map g a)) -> In x a /\ y = g x.
Proof. induction a as [|u a IH]; intros x y; cbn; [tauto|]. intros [E|I]; [injection E as <- <-; auto|]. destruct (IH _ _ I) as [Z ->]. auto. Qed.
Lemma in_combine : forall {A B} (a : list A) (b : list B) x, List.length a = List.length b -> In x a -> exists y, In (x, y) (combine a b).
Proof. induction a as [|u a IH]; intros [|v b] x L I; cbn in *; try contradiction; try discriminate L. destruct I as [->|I]; [eauto|]. destruct (IH b x) as [y Y]; [lia|exact I|eauto]. Qed.
Definition name (m : string * bool * ty) : string := fst (fst m).
Lemma env_ok : forall {A B} (f : ty -> A) ms (vs : list B) m ov, NoDup (map name ms) -> In (m, ov) (combine ms vs) ->
  assoc (name m) (combine (map name ms) (combine (map (fun m => f (snd m)) ms) vs)) = Some (f (snd m), ov).
Proof.
  induction ms as [|x ms IH]; intros [|v vs] m ov N I; cbn in *; try contradiction. inversion N as [|? ? Nx Nq]; subst. destruct I as [E|I].
  - injection E as <- <-. rewrite String.eqb_refl. reflexivity.
  - destruct (String.eqb_spec (name m) (name x)) as [E|E]; [exfalso; apply Nx; rewrite <- E; apply in_map; exact (in_combine_l _ _ _ _ I)|]. apply IH; assumption.
Qed.
Lemma env_read : forall {A} (f : ty -> A) ms m, NoDup (map name ms) -> In m ms -> assoc (name m) (map (fun m => (name m, f (snd m))) ms) = Some (f (snd m)).
Proof.
  induction ms as [|x ms IH]; intros m N I; cbn in *; [contradiction|]. inversion N as [|? ? Nx Nq]; subst. destruct I as [->|I]; [rewrite String.eqb_refl; reflexivity|].
  destruct (String.eqb_spec (name m) (name x)) as [E|E]; [exfalso; apply Nx; rewrite <- E; apply in_map, I|]. apply IH; assumption.
Qed.

(** ** Objects *)
Lemma get_set : forall k v o, obj_get k (obj_set k v o) = Some v.
Proof. induction o as [|[k' v'] o IH]; cbn; [rewrite String.eqb_refl; reflexivity|]. destruct (String.eqb_spec k k'); cbn; [rewrite String.eqb_refl; reflexivity|]. destruct (str_lt k k'); cbn; [rewrite String.eqb_refl; reflexivity|]. destruct (String.eqb_spec k k'); [contradiction|exact IH]. Qed.
Lemma get_set_other : forall k k' v o, k' <> k -> obj_get k' (obj_set k v o) = obj_get k' o.
Proof.
  induction o as [|[x y] o IH]; intros N; cbn.
  - destruct (String.eqb_spec k' k); [contradiction|reflexivity].
  - destruct (String.eqb_spec k x) as [->|E]; cbn; [destruct (String.eqb_spec k' x); [contradiction|reflexivity]|].
    destruct (str_lt k x); cbn; [destruct (String.eqb_spec k' k); [contradiction|reflexivity]|]. destruct (String.eqb k' x); [reflexivity|apply IH, N].
Qed.
Lemma increasing_cons : forall k ks, increasing ks -> Forall (fun x => str_lt k x = true) ks -> increasing (k :: ks).
Proof. intros k [|x ks] I F; cbn; [exact Logic.I|]. inversion F; subst. split; assumption. Qed.
Lemma set_forall : forall (P : string -> Prop) k v o, P k -> Forall P (map fst o) -> Forall P (map fst (obj_set k v o)).
Proof.
  induction o as [|[x y] o IH]; intros K F; cbn; [constructor; [exact K|constructor]|]. cbn in F. inversion F; subst. destruct (String.eqb k x); cbn; [constructor; assumption|].
  destruct (str_lt k x); cbn; constructor; auto.
Qed.
Lemma set_increasing : forall k v o, increasing (map fst o) -> increasing (map fst (obj_set k v o)).
Proof.
  induction o as [|[x y] o IH]; intros I; [exact Logic.I|]. cbn [map fst] in I. destruct (increasing_tail _ _ I) as [It F]. cbn [obj_set]. destruct (String.eqb_spec k x) as [->|N]; [exact I|].
  destruct (str_lt k x) eqn:L; cbn [map fst].
  - apply increasing_cons; [exact I|]. constructor; [exact L|]. eapply Forall_impl; [|exact F]. intros z Z. exact (str_lt_trans k x z L Z).
  - apply increasing_cons; [apply IH, It|]. apply set_forall; [|exact F]. destruct (str_lt_total k x) as [T|[T|T]]; congruence.
Qed.
Lemma set_values : forall (P : json -> Prop) k v o, P v -> Forall (fun kv => P (snd kv)) o -> Forall (fun kv => P (snd kv)) (obj_set k v o).
Proof.
  induction o as [|[x y] o IH]; intros K F; cbn; [constructor; [exact K|constructor]|]. inversion F; subst. destruct (String.eqb k x); [constructor; assumption|].
  destruct (str_lt k x); constructor; auto.
Qed.
Lemma get_keys : forall k o, In k (map fst o) <-> obj_get k o <> None.
Proof.
  induction o as [|[x y] o IH]; cbn; [tauto|]. destruct (String.eqb_spec k x) as [->|N]; [split; [discriminate|auto]|]. rewrite <- IH. split; [intros [E|I]; [congruence|exact I]|auto].
Qed.
Lemma get_has : forall k o j, obj_get k o = Some j <-> has o k j.
Proof.
  intros k o j. split.
  - induction o as [|[x y] o IH]; cbn; [discriminate|]. destruct (String.eqb_spec k x) as [->|N]; intros H; [injection H as ->; constructor|constructor; auto].
  - induction 1 as [k j q|k k' j' q j N H IH]; cbn; [rewrite String.eqb_refl; reflexivity|]. destruct (String.eqb_spec k k'); [contradiction|exact IH].
Qed.
Lemma get_lacks : forall k o, obj_get k o = None <-> lacks o k.
Proof. intros k o. unfold lacks. rewrite get_keys. destruct (obj_get k o); split; intros H; try congruence. exfalso. apply H. discriminate. Qed.
Lemma increasing_nodup : forall ks, increasing ks -> NoDup ks.
Proof.
  induction ks as [|k ks IH]; intros I; [constructor|]. destruct (increasing_tail _ _ I) as [It F]. constructor; [|auto]. intros K. rewrite Forall_forall in F. specialize (F k K). rewrite str_lt_irrefl in F. discriminate.
Qed.
Lemma at_under : forall k j x, at_key k j = Some x <-> under j k x.
Proof.
  intros k j x. unfold under. split.
  - destruct j; cbn; try discriminate. intros H. eexists. split; [reflexivity|]. apply get_has, H.
  - intros (o&->&H). apply get_has, H.
Qed.

(** ** What is checked of each type *)
Definition direct (t : ty) : bool := match t with Vec _ | Enm _ | Time => false | _ => true end.
Definition pair_dec : forall a b : string * string, {a = b} + {a <> b}.
Proof. decide equality; apply string_dec. Defined.
Definition enum_eqb (a b : enum) : bool :=
  (e_name a =? e_name b)%string && (if list_eq_dec string_dec (e_decl a) (e_decl b) then true else false) &&
  (if list_eq_dec (pair_dec) (e_out a) (e_out b) then true else false) &&
  (if list_eq_dec (pair_dec) (e_in a) (e_in b) then true else false).
Lemma enum_eqb_eq : forall a b, enum_eqb a b = true -> a = b.
Proof.
  intros [n d o i] [n' d' o' i'] H. unfold enum_eqb in H. cbn [e_name e_decl e_out e_in] in H. rewrite !andb_true_iff in H. destruct H as [[[A B] C] D]. apply String.eqb_eq in A.
  destruct (list_eq_dec string_dec d d'); [|discriminate B]. destruct (list_eq_dec pair_dec o o'); [|discriminate C]. destruct (list_eq_dec pair_dec i i'); [|discriminate D]. congruence.
Qed.
(** The kind of conversion a type needs. *)
Definition written (t : ty) (h : how) : bool :=
  match t, h with
  | Time, Text => true
  | Enm e, Conv e' => enum_eqb e e'
  | Vec (Enm e), EachConv e' => enum_eqb e e'
  | Vec u, (Plain | Each) => direct u
  | _, Plain => direct t
  | _, _ => false
  end.
Definition readable (t : ty) (h : how) : bool :=
  match t, h with
  | Time, Text => true
  | Enm e, Conv e' => enum_eqb e e'
  | Vec (Enm e), EachConv e' => enum_eqb e e'
  | Vec u, Each => direct u
  | _, Plain => direct t
  | _, _ => false
  end.
Definition laxb (ms : list (string * bool * ty)) (n : string) : bool :=
  String.eqb n "value" && match v2_VariableAttribute with
                          | Struct ms' _ _ => if list_eq_dec (fun a b : string * bool => ltac:(decide equality; [apply bool_dec|apply string_dec])) (map fst ms) (map fst ms') then true else false
                          | _ => false end.
Definition wkey (w : write) : string := match w with WReq k _ _ | WOpt _ k _ _ => k end.
Definition rkey (r : read) : string := match r with RReq k _ _ | ROpt _ k _ _ => k end.
Definition wmatch (w : write) (m : string * bool * ty) : bool :=
  let '(n, opt, u) := m in
  match w with
  | WReq k x h => String.eqb k n && String.eqb x n && negb opt && written u h
  | WOpt g k x h => String.eqb g n && String.eqb k n && String.eqb x n && opt && written u h
  end.
Definition rhow (ms : list (string * bool * ty)) (n : string) (u : ty) (h : how) : bool :=
  if laxb ms n then match u, h with Str _, Dumped => true | _, _ => false end else readable u h.
Definition rmatch (ms : list (string * bool * ty)) (r : read) (m : string * bool * ty) : bool :=
  let '(n, opt, u) := m in
  match r with
  | RReq k x h => String.eqb k n && String.eqb x n && negb opt && rhow ms n u h
  | ROpt g k x h => String.eqb g n && String.eqb k n && String.eqb x n && opt && rhow ms n u h
  end.
Fixpoint sound (t : ty) : bool :=
  match t with
  | Enm e => good (fun _ => false) e
  | Vec u => sound u
  | Struct ms ws rs =>
      nodup (map name ms) && forallb (fun m => sound (snd m)) ms &&
      (nodup (map wkey ws) && forallb (fun w => existsb (wmatch w) ms) ws && forallb (fun m => mem (name m) (map wkey ws)) ms) &&
      (nodup (map rkey rs) && forallb (fun r => existsb (rmatch ms r) ms) rs && forallb (fun m => mem (name m) (map rkey rs)) ms)
  | _ => true
  end.
Lemma all_sound : forallb (fun p => sound (snd p)) all_types = true.
Proof. vm_compute. reflexivity. Qed.
