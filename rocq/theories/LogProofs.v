(** Proofs about the rotation of a log file. *)
From Coq Require Import ZArith String Ascii List Bool Lia Permutation Sorted.
From Verif Require Import StrModel LogModel LogSpec.
Import ListNotations.
Open Scope string_scope.
Open Scope list_scope.
Open Scope Z_scope.

Lemma name_eqb_spec a b : reflect (a = b) (name_eqb a b).
Proof.
  destruct a as [|s|k], b as [|t|l]; cbn [name_eqb]; try (constructor; discriminate).
  - constructor; reflexivity.
  - destruct (String.eqb_spec s t) as [E|E]; constructor; [now rewrite E|intros H; now injection H].
  - destruct (Z.eqb_spec k l) as [E|E]; constructor; [now rewrite E|intros H; now injection H].
Qed.
Lemma name_eqb_refl a : name_eqb a a = true. Proof. destruct (name_eqb_spec a a); congruence. Qed.
Lemma name_eqb_ne a b : a <> b -> name_eqb a b = false. Proof. destruct (name_eqb_spec a b); congruence. Qed.

Lemma put_same d x v : put d x v x = v. Proof. unfold put. now rewrite name_eqb_refl. Qed.
Lemma put_other d x v y : y <> x -> put d x v y = d y. Proof. intros H. unfold put. now rewrite name_eqb_ne. Qed.
Lemma rename_to d a b : a <> b -> rename d a b b = d a.
Proof. intros H. unfold rename. rewrite (name_eqb_ne a b H), put_other by congruence. apply put_same. Qed.
Lemma rename_from d a b : a <> b -> rename d a b a = None.
Proof. intros H. unfold rename. rewrite (name_eqb_ne a b H). apply put_same. Qed.
Lemma rename_else d a b x : x <> a -> x <> b -> rename d a b x = d x.
Proof. intros H K. unfold rename. destruct (name_eqb a b); [reflexivity|]. rewrite !put_other by congruence. reflexivity. Qed.

Lemma size_weight l : size_of l = weight l.
Proof.
  unfold weight. enough (H : forall n, fold_left Z.add (List.map bytes l) n = n + size_of l) by (rewrite H; lia).
  induction l as [|x l IH]; intros n; cbn [List.map fold_left size_of fold_right]; [lia|].
  rewrite IH. unfold size_of. lia.
Qed.

(** The i-th file: the file itself, "0", "1", ... *)
Definition nm (i : nat) : name := match i with O => Base | Datatypes.S j => Ext (String (ascii_of_nat (48 + j)) EmptyString) end.

Lemma nm_gt i j : (i <= 10)%nat -> (j <= 10)%nat -> name_gt (nm i) (nm j) = Nat.ltb j i.
Proof. intros Hi Hj. do 11 (destruct i as [|i]; [do 11 (destruct j as [|j]; [reflexivity|]); lia|]). lia. Qed.
Lemma nm_next j : (j <= 8)%nat -> stoi (String (ascii_of_nat (48 + j)) EmptyString) = Ret (Z.of_nat j) /\ to_string (Z.of_nat j + 1) = String (ascii_of_nat (48 + Datatypes.S j)) EmptyString.
Proof. intros H. do 9 (destruct j as [|j]; [split; reflexivity|]). lia. Qed.
Lemma digit_nm j : (j <= 9)%nat -> digit (String (ascii_of_nat (48 + j)) EmptyString) = Some j.
Proof. intros H. do 10 (destruct j as [|j]; [reflexivity|]). lia. Qed.
Lemma digit_inv s j : digit s = Some j -> (j <= 9)%nat /\ s = String (ascii_of_nat (48 + j)) EmptyString.
Proof.
  unfold digit. destruct s as [|a [|b s]]; try discriminate.
  destruct ((48 <=? nat_of_ascii a)%nat && (nat_of_ascii a <=? 57)%nat) eqn:E; [|discriminate].
  intros H. injection H as <-. apply andb_true_iff in E as [E F]. apply Nat.leb_le in E, F.
  split; [lia|]. replace (48 + (nat_of_ascii a - 48))%nat with (nat_of_ascii a) by lia. now rewrite ascii_nat_embedding.
Qed.
Lemma nm_inj i j : (i <= 10)%nat -> (j <= 10)%nat -> nm i = nm j -> i = j.
Proof.
  intros Hi Hj E. pose proof (nm_gt i j Hi Hj) as A. pose proof (nm_gt j i Hj Hi) as B. rewrite E in A, B.
  rewrite nm_gt in A, B by assumption. rewrite Nat.ltb_irrefl in A, B. symmetry in A, B.
  apply Nat.ltb_ge in A, B. lia.
Qed.

(** Sorting. *)
Definition desc (a b : name) : Prop := name_gt a b = true.
Lemma insert_perm x l : Permutation (x :: l) (insert x l).
Proof.
  induction l as [|y l IH]; cbn [insert]; [reflexivity|]. destruct (name_gt y x); [|reflexivity].
  rewrite perm_swap. now constructor.
Qed.
Lemma sort_perm l : Permutation l (sort l).
Proof. induction l as [|x l IH]; [reflexivity|]. cbn [sort fold_right]. rewrite <- insert_perm. now constructor. Qed.

(** A sorted list of these files. *)
Fixpoint down (k : nat) : list name := match k with O => [] | Datatypes.S j => nm j :: down j end.
Lemma in_down k x : In x (down k) <-> exists i, (i < k)%nat /\ x = nm i.
Proof.
  induction k as [|k IH]; cbn [down In].
  - split; [easy|intros (i & H & _); lia].
  - rewrite IH. split.
    + intros [<-|(i & H & E)]; [exists k; split; [lia|reflexivity]|exists i; split; [lia|exact E]].
    + intros (i & H & E). destruct (Nat.eq_dec i k) as [->|N]; [now left|right; exists i; split; [lia|exact E]].
Qed.
Lemma nodup_down k : (k <= 11)%nat -> NoDup (down k).
Proof.
  induction k as [|k IH]; intros H; cbn [down]; constructor; [|apply IH; lia].
  rewrite in_down. intros (i & Hi & E). apply nm_inj in E; lia.
Qed.
Lemma length_down k : List.length (down k) = k.
Proof. induction k as [|k IH]; cbn [down List.length]; congruence. Qed.

(** Inserting and sorting files of which it is known that they are among the first eleven. *)
Lemma insert_sorted x l (A : forall y, In y (x :: l) -> exists i, (i <= 10)%nat /\ y = nm i) :
  ~ In x l -> StronglySorted desc l -> StronglySorted desc (insert x l).
Proof.
  induction l as [|y l IH]; intros N S; cbn [insert].
  - constructor; constructor.
  - apply StronglySorted_inv in S as [S F].
    destruct (A x) as (i & Hi & Ei); [now left|]. destruct (A y) as (j & Hj & Ej); [right; now left|].
    destruct (name_gt y x) eqn:G.
    + constructor.
      * apply IH; [intros z Hz; apply A; destruct Hz as [Hz|Hz]; [now left|right; now right]| |exact S].
        intros K. apply N. now right.
      * rewrite Forall_forall in F |- *. intros z Hz. apply (Permutation_in _ (Permutation_sym (insert_perm x l))) in Hz.
        destruct Hz as [<-|Hz]; [exact G|now apply F].
    + assert (XY : desc x y).
      { unfold desc. subst x y. rewrite nm_gt in G |- * by assumption. apply Nat.ltb_ge in G. apply Nat.ltb_lt.
        destruct (Nat.eq_dec i j) as [->|M]; [exfalso; apply N; now left|lia]. }
      constructor; [now constructor|]. constructor; [exact XY|].
      rewrite Forall_forall in F |- *. intros z Hz. specialize (F z Hz).
      destruct (A z) as (k & Hk & Ek); [right; now right|].
      unfold desc in *. subst x y z. rewrite nm_gt in F, XY |- * by assumption.
      apply Nat.ltb_lt in F, XY. apply Nat.ltb_lt. lia.
Qed.
Lemma sort_sorted l (A : forall y, In y l -> exists i, (i <= 10)%nat /\ y = nm i) : NoDup l -> StronglySorted desc (sort l).
Proof.
  induction l as [|x l IH]; intros N; cbn [sort fold_right]; [constructor|]. inversion N; subst.
  apply insert_sorted.
  - intros y [<-|Hy]; [apply A; now left|]. apply A. right. eapply Permutation_in; [symmetry; apply sort_perm|exact Hy].
  - intros K. apply (Permutation_in _ (Permutation_sym (sort_perm l))) in K. contradiction.
  - apply IH; [|assumption]. intros y Hy. apply A. now right.
Qed.
Lemma down_sorted k : (k <= 11)%nat -> StronglySorted desc (down k).
Proof.
  induction k as [|k IH]; intros H; cbn [down]; constructor; [apply IH; lia|].
  rewrite Forall_forall. intros x Hx. apply in_down in Hx as (i & Hi & ->). unfold desc. rewrite nm_gt by lia. now apply Nat.ltb_lt.
Qed.
Lemma sorted_unique : forall l m (A : forall y, In y l -> exists i, (i <= 10)%nat /\ y = nm i),
  StronglySorted desc l -> StronglySorted desc m -> Permutation l m -> l = m.
Proof.
  induction l as [|x l IH]; intros m A S T P.
  - apply Permutation_nil in P. now symmetry.
  - destruct m as [|y m]; [symmetry in P; apply Permutation_nil in P; discriminate|].
    apply StronglySorted_inv in S as [S F]. apply StronglySorted_inv in T as [T G].
    rewrite Forall_forall in F, G.
    assert (E : x = y).
    { assert (Hx : In x (y :: m)) by (eapply Permutation_in; [exact P|now left]).
      assert (Hy : In y (x :: l)) by (eapply Permutation_in; [symmetry; exact P|now left]).
      destruct Hx as [Hx|Hx]; [now symmetry|]. destruct Hy as [Hy|Hy]; [exact Hy|].
      specialize (F y Hy). specialize (G x Hx). unfold desc in *.
      destruct (A x) as (i & Hi & Ei); [now left|]. destruct (A y) as (j & Hj & Ej); [now right|]. subst x y.
      rewrite nm_gt in F, G by assumption. apply Nat.ltb_lt in F, G. lia. }
    subst y. f_equal. apply IH; [intros z Hz; apply A; now right|assumption|assumption|].
    eapply Permutation_cons_inv. exact P.
Qed.
Lemma sort_down l k : (k <= 11)%nat -> NoDup l -> (forall x, In x l <-> exists i, (i < k)%nat /\ x = nm i) -> sort l = down k.
Proof.
  intros K N H.
  assert (A : forall y, In y l -> exists i, (i <= 10)%nat /\ y = nm i).
  { intros y Hy. apply H in Hy as (i & Hi & ->). exists i. split; [lia|reflexivity]. }
  assert (P : Permutation l (sort l)) by apply sort_perm.
  apply sorted_unique.
  - intros y Hy. apply A. eapply Permutation_in; [symmetry; exact P|exact Hy].
  - now apply sort_sorted.
  - now apply down_sorted.
  - rewrite <- P. apply NoDup_Permutation; [assumption|now apply nodup_down|].
    intros x. now rewrite H, in_down.
Qed.

(** Renaming them all from the oldest to the newest. *)
Lemma rename_all c now : dated c = false -> forall k d st, (k <= 10)%nat ->
  let r := fold_left (rename_one c now) (down k) (d, st) in
  (forall i, (i < k)%nat -> fst r (nm (Datatypes.S i)) = d (nm i)) /\
  ((0 < k)%nat -> fst r Base = None) /\
  (forall x, (forall i, (i <= k)%nat -> x <> nm i) -> fst r x = d x) /\
  snd r = (match k with O => st | _ => rotated st end).
Proof.
  intros D. induction k as [|k IH]; intros d st K; cbn zeta.
  - cbn [down fold_left fst snd]. split; [lia|]. split; [lia|]. split; [reflexivity|reflexivity].
  - cbn [down fold_left].
    assert (E : rename_one c now (d, st) (nm k) = (rename d (nm k) (nm (Datatypes.S k)), rotated st)).
    { destruct k as [|j]; cbn [nm rename_one]; rewrite D; [reflexivity|].
      destruct (nm_next j) as [A B]; [lia|]. rewrite A.
      destruct (Z.eqb_spec (Z.of_nat j) int_max) as [X|X]; [unfold int_max in X; lia|]. now rewrite B. }
    rewrite E. specialize (IH (rename d (nm k) (nm (Datatypes.S k))) (rotated st)). cbn zeta in IH.
    destruct IH as (A & B & F & G); [lia|].
    assert (NE : forall i j, (i <= 10)%nat -> (j <= 10)%nat -> i <> j -> nm i <> nm j).
    { intros i j Hi Hj N X. apply N. now apply nm_inj. }
    split; [|split; [|split]].
    + intros i Hi. destruct (Nat.eq_dec i k) as [->|N].
      * rewrite F; [apply rename_to; apply NE; lia|]. intros j Hj. apply NE; lia.
      * rewrite A by lia. apply rename_else; apply NE; lia.
    + intros _. destruct k as [|j]; [|apply B; lia].
      cbn [down fold_left fst]. apply (rename_from d Base (nm 1)). discriminate.
    + intros x Hx. rewrite F by (intros i Hi; apply Hx; lia). apply rename_else; apply Hx; lia.
    + rewrite G. destruct k, st; reflexivity.
Qed.
