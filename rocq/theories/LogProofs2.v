(** Proofs about the rotation of a log file: all histories. *)
From Coq Require Import ZArith String Ascii List Bool Lia Permutation Sorted.
From Verif Require Import StrModel LogModel LogSpec LogProofs.
Import ListNotations.
Open Scope string_scope.
Open Scope list_scope.
Open Scope Z_scope.

Lemma nth_firstn {A} (l : list A) : forall n i, nth_error (firstn n l) i = if Nat.ltb i n then nth_error l i else None.
Proof.
  induction l as [|x l IH]; intros n i.
  - rewrite firstn_nil. replace (nth_error (@nil A) i) with (@None A) by (now destruct i). now destruct (Nat.ltb i n).
  - destruct n as [|n]; [now destruct i|]. destruct i as [|i]; [reflexivity|].
    cbn [firstn nth_error]. rewrite IH. reflexivity.
Qed.
Lemma nth_none {A} (l : list A) i : (List.length l <= i)%nat -> nth_error l i = None.
Proof. apply nth_error_None. Qed.

Lemma shelf_nm b d0 i : (i <= 10)%nat -> shelf b d0 (nm i) = nth_error b i.
Proof. intros H. destruct i as [|j]; [reflexivity|]. cbn [nm shelf]. now rewrite digit_nm by lia. Qed.
Lemma name_cases x : (exists i, (i <= 10)%nat /\ x = nm i) \/
  ((forall i, (i <= 10)%nat -> x <> nm i) /\ forall b b' d0, shelf b d0 x = shelf b' d0 x).
Proof.
  destruct x as [|s|k].
  - left. exists O. split; [lia|reflexivity].
  - destruct (digit s) as [j|] eqn:E.
    + apply digit_inv in E as [J ->]. left. exists (Datatypes.S j). split; [lia|reflexivity].
    + right. split; [|intros; cbn [shelf]; now rewrite E].
      intros i Hi X. destruct i as [|j]; [discriminate|]. cbn [nm] in X.
      assert (Y : s = String (ascii_of_nat (48 + j)) EmptyString) by congruence. rewrite Y, digit_nm in E by lia. discriminate.
  - right. split; [|reflexivity]. intros i _ X. destruct i; discriminate.
Qed.

Lemma open_base d : open_app d Base = Some (match d Base with Some l => l | None => [] end).
Proof. unfold open_app. destruct (d Base) as [l|] eqn:E; [exact E|apply put_same]. Qed.
Lemma open_else d x : x <> Base -> open_app d x = d x.
Proof. intros H. unfold open_app. destruct (d Base); [reflexivity|now apply put_other]. Qed.
Lemma append_opt_base d l t : d Base = Some l -> append_opt d t Base = Some (l ++ tags t).
Proof.
  intros E. destruct t as [x|]; cbn [append_opt tags].
  - unfold append. rewrite E. apply put_same.
  - now rewrite app_nil_r.
Qed.
Lemma append_opt_else d t x : x <> Base -> append_opt d t x = d x.
Proof. intros H. destruct t as [y|]; [|reflexivity]. cbn [append_opt]. unfold append. destruct (d Base); [now apply put_other|reflexivity]. Qed.
Lemma append_base d l x : d Base = Some l -> append d x Base = Some (l ++ [x]).
Proof. exact (append_opt_base d l (Some x)). Qed.
Lemma append_else d y x : x <> Base -> append d y x = d x.
Proof. exact (append_opt_else d (Some y) x). Qed.

Section Rotation.
Context (c : cfg) (d0 : dir) (D : dated c = false) (N : 1 <= max_count c <= 11).
Let n := Z.to_nat (max_count c).

Lemma n_range : (1 <= n <= 11)%nat. Proof. unfold n. lia. Qed.

Lemma rotate_shelf now ls d b : b <> [] -> (forall x, d x = shelf (firstn n b) d0 x) -> lists ls d ->
  (forall x, open_app (fst (rotate_log c now ls d)) x = shelf (firstn n ([] :: b)) d0 x) /\
  snd (rotate_log c now ls d) = if Nat.leb n (List.length b) then RotatedWithDeletion else Rotated.
Proof.
  intros B H [ND L]. pose proof n_range as NR. set (k := List.length (firstn n b)).
  assert (K : k = Nat.min n (List.length b)) by apply firstn_length.
  assert (B1 : (1 <= List.length b)%nat) by (destruct b; [congruence|cbn [List.length]; lia]).
  assert (S : sort (filter belongs ls) = down k).
  { apply sort_down; [lia|now apply NoDup_filter|]. intros x. rewrite filter_In, L. split.
    - intros [P Q]. rewrite H in P. destruct (name_cases x) as [(i & Hi & ->)|[O E]].
      + exists i. split; [|reflexivity]. rewrite shelf_nm in P by assumption. now apply nth_error_Some in P.
      + exfalso. destruct x as [|s|m]; [now apply (O 0%nat); [lia|]|..].
        * rewrite (E _ [] d0) in P. cbn [shelf] in P. destruct (digit s); apply P; reflexivity.
        * discriminate.
    - intros (i & Hi & ->). split; [|now destruct i].
      rewrite H, shelf_nm by lia. now apply nth_error_Some. }
  unfold rotate_log. rewrite S, length_down.
  assert (G : (0 <? max_count c) && (max_count c <=? Z.of_nat k) = Nat.leb n (List.length b)).
  { destruct (Z.ltb_spec 0 (max_count c)); [|lia]. cbn [andb].
    destruct (Z.leb_spec (max_count c) (Z.of_nat k)), (Nat.leb_spec n (List.length b)); try reflexivity; unfold n in *; lia. }
  rewrite G. clear G. destruct (Nat.leb_spec n (List.length b)) as [F|F].
  - assert (Kn : k = n) by lia. destruct k as [|m]; [lia|]. cbn [down].
    pose proof (rename_all c now D m (put d (nm m) None) RotatedWithDeletion) as R. cbn zeta in R.
    destruct R as (R1 & R2 & R3 & R4); [lia|].
    split; [|rewrite R4; now destruct m].
    assert (PE : forall i, (i <= 10)%nat -> i <> m -> put d (nm m) None (nm i) = d (nm i)).
    { intros i Hi E. apply put_other. intros X. apply E. apply nm_inj; [lia|lia|exact X]. }
    intros x. destruct (name_cases x) as [(i & Hi & ->)|[O E]].
    + rewrite shelf_nm by assumption. destruct i as [|i].
      * cbn [nm]. rewrite open_base. rewrite <- Kn. cbn [firstn nth_error].
        destruct m as [|m']; [|now rewrite R2 by lia].
        cbn [down fold_left fst nm]. now rewrite put_same.
      * rewrite open_else by discriminate. rewrite nth_firstn. cbn [nth_error].
        destruct (Nat.ltb_spec (Datatypes.S i) n) as [J|J].
        -- rewrite R1 by lia. rewrite PE by lia. rewrite H, shelf_nm, nth_firstn by lia. now destruct (Nat.ltb_spec i n); [|lia].
        -- rewrite R3.
           ++ rewrite PE by lia. rewrite H, shelf_nm, nth_firstn by lia. now destruct (Nat.ltb_spec (Datatypes.S i) n); [lia|].
           ++ intros j Hj X. apply nm_inj in X; lia.
    + rewrite open_else by (apply (O 0%nat); lia).
      rewrite R3 by (intros j Hj; apply O; lia).
      rewrite put_other by (apply O; lia). rewrite H. apply E.
  - assert (Kn : k = List.length b) by lia.
    assert (FB : firstn n b = b) by (apply firstn_all2; lia).
    pose proof (rename_all c now D k d NotRotated) as R. cbn zeta in R.
    destruct R as (R1 & R2 & R3 & R4); [lia|].
    split; [|rewrite R4; destruct k; [lia|reflexivity]].
    rewrite FB in H.
    intros x. destruct (name_cases x) as [(i & Hi & ->)|[O E]].
    + rewrite shelf_nm by assumption. destruct i as [|i].
      * cbn [nm]. rewrite open_base, R2 by lia. destruct n as [|n']; [lia|reflexivity].
      * rewrite open_else by discriminate. rewrite nth_firstn. cbn [nth_error].
        destruct (Nat.ltb_spec i k) as [J|J].
        -- rewrite R1, H, shelf_nm by lia. now destruct (Nat.ltb_spec (Datatypes.S i) n); [|lia].
        -- rewrite R3 by (intros j Hj X; apply nm_inj in X; lia).
           rewrite H, shelf_nm by lia. rewrite !nth_none by lia. now destruct (Nat.ltb (Datatypes.S i) n).
    + rewrite open_else by (apply (O 0%nat); lia).
      rewrite R3 by (intros j Hj; apply O; lia). rewrite H. apply E.
Qed.

(** Changing the newest part. *)
Lemma shelf_head d l r l' : (forall x, d x = shelf (firstn n (l :: r)) d0 x) -> forall d', d' Base = Some l' ->
  (forall x, x <> Base -> d' x = d x) -> forall x, d' x = shelf (firstn n (l' :: r)) d0 x.
Proof.
  intros H d' B E x. pose proof n_range as NR. destruct n as [|m]; [lia|]. cbn [firstn] in *.
  destruct x as [|s|k]; [exact B|..]; rewrite E, H by discriminate; reflexivity.
Qed.
Lemma shelf_base d l r : (forall x, d x = shelf (firstn n (l :: r)) d0 x) -> d Base = Some l.
Proof. intros H. rewrite H. pose proof n_range as NR. destruct n; [lia|reflexivity]. Qed.

Definition outcome (b : list (list line)) : status :=
  match b with
  | l :: _ => if full c l then if Nat.leb n (List.length b) then RotatedWithDeletion else Rotated else NotRotated
  | [] => NotRotated
  end.

Lemma needed_shelf now ls d b : (forall x, d x = shelf (firstn n b) d0 x) -> lists ls d ->
  (forall x, fst (rotate_log_if_needed c now ls d) x = shelf (firstn n (turn c b)) d0 x) /\
  snd (rotate_log_if_needed c now ls d) = outcome b.
Proof.
  intros H L. unfold rotate_log_if_needed.
  destruct b as [|l r].
  - assert (E : safe_file_size d Base = 0). { unfold safe_file_size. rewrite H, firstn_nil. reflexivity. }
    rewrite E. cbn [turn outcome].
    destruct (rotates c); cbn [negb]; [|now split]. destruct (Z.leb_spec (max_size c) 0); [now split|]. now split.
  - pose proof (shelf_base d l r H) as E.
    assert (Z0 : safe_file_size d Base = weight l). { unfold safe_file_size. rewrite E. apply size_weight. }
    rewrite Z0. unfold turn, outcome, full.
    destruct (rotates c); cbn [negb andb]; [|now split].
    destruct (Z.leb_spec (max_size c) 0) as [M1|M1], (Z.ltb_spec 0 (max_size c)) as [M2|M2]; try lia; cbn [andb]; [now split|].
    destruct (max_size c <=? weight l); [|now split].
    set (d1 := append_opt d (closing c)).
    assert (H1 : forall x, d1 x = shelf (firstn n ((l ++ tags (closing c)) :: r)) d0 x).
    { apply (shelf_head d l); [exact H|now apply append_opt_base|]. intros x X. now apply append_opt_else. }
    assert (L1 : lists ls d1).
    { destruct L as [L1 L2]. split; [exact L1|]. intros x. rewrite L2. destruct (name_eqb_spec x Base) as [->|X].
      - unfold d1. rewrite (append_opt_base d l _ E), E. split; discriminate.
      - unfold d1. now rewrite append_opt_else. }
    assert (NN : (l ++ tags (closing c)) :: r <> []) by discriminate.
    destruct (rotate_shelf now ls d1 _ NN H1 L1) as [R1 R2].
    destruct (rotate_log c now ls d1) as [d2 st]. cbn [fst snd] in *. split; [|exact R2].
    apply (shelf_head (open_app d2) []); [exact R1| |].
    + rewrite (append_opt_base _ []); [reflexivity|]. exact (shelf_base _ _ _ R1).
    + intros x X. now apply append_opt_else.
Qed.

Lemma step_shelf h d o : (forall x, d x = shelf (firstn n (book c h)) d0 x) -> sees o d ->
  (forall x, fst (step c d o) x = shelf (firstn n (book c (o :: h))) d0 x) /\
  snd (step c d o) = (match o with Stop => NotRotated | _ => outcome (book c h) end).
Proof.
  intros H V. destruct o as [now ls|now ls x|]; cbn [sees] in V; cbn [step].
  - set (b := match book c h with [] => [[]] | b => b end).
    assert (H1 : forall x, open_app d x = shelf (firstn n b) d0 x).
    { intros x. pose proof n_range as NR. subst b. destruct (book c h) as [|l r].
      - rewrite firstn_nil in H. destruct n as [|m]; [lia|].
        destruct x as [|s|k]; [rewrite open_base, H; reflexivity|..]; rewrite open_else, H by discriminate; cbn [shelf]; [|reflexivity].
        destruct (digit s) as [j|]; [|reflexivity]. cbn [firstn nth_error]. rewrite firstn_nil. now destruct j.
      - destruct (name_eqb_spec x Base) as [->|X]; [|rewrite open_else by exact X; apply H].
        rewrite open_base, H. destruct n as [|m]; [lia|reflexivity]. }
    assert (L1 : lists ls (open_app d)).
    { destruct V as [V1 V2]. split; [exact V1|]. intros x. rewrite V2. destruct (name_eqb_spec x Base) as [->|X].
      - rewrite open_base. split; [discriminate|now left].
      - rewrite open_else by exact X. split; [intros [E|E]; [contradiction|exact E]|now right]. }
    destruct (needed_shelf now ls _ _ H1 L1) as [R1 R2].
    destruct (rotate_log_if_needed c now ls (open_app d)) as [d1 st]. cbn [fst snd] in *.
    assert (T : exists l r, turn c b = l :: r /\ book c (Start now ls :: h) = (if 0 <? weight l then l else l ++ tags (opening c)) :: r).
    { cbn [book]. subst b. destruct (book c h) as [|l r].
      - exists [], []. cbn [turn]. assert (F : full c [] = false).
        { unfold full. destruct (rotates c); [|reflexivity]. cbn [andb]. destruct (Z.ltb_spec 0 (max_size c)) as [M|M]; [|reflexivity].
          cbn [andb]. apply Z.leb_gt. exact M. }
        rewrite F. split; [reflexivity|reflexivity].
      - unfold turn. destruct (full c l); eexists; eexists; split; reflexivity. }
    destruct T as (l & r & T1 & T2). rewrite T2. rewrite T1 in R1.
    pose proof (shelf_base _ _ _ R1) as E. split.
    + unfold first_tags, safe_file_size. rewrite E, size_weight. destruct (0 <? weight l); [exact R1|].
      apply (shelf_head d1 l); [exact R1|now apply append_opt_base|]. intros x X. now apply append_opt_else.
    + rewrite R2. subst b. destruct (book c h); [|reflexivity]. cbn [outcome].
      unfold full. destruct (rotates c); [|reflexivity]. cbn [andb]. destruct (Z.ltb_spec 0 (max_size c)); [|reflexivity].
      cbn [andb]. unfold weight. cbn [List.map fold_left]. now destruct (Z.leb_spec (max_size c) 0); [lia|].
  - destruct (needed_shelf now ls _ _ H V) as [R1 R2].
    destruct (rotate_log_if_needed c now ls d) as [d1 st]. cbn [fst snd book] in *. split; [|exact R2].
    destruct (turn c (book c h)) as [|l r].
    + intros y. unfold append. assert (E : d1 Base = None) by (rewrite R1, firstn_nil; reflexivity). rewrite E. apply R1.
    + pose proof (shelf_base _ _ _ R1) as E.
      apply (shelf_head d1 l); [exact R1|now apply append_base|]. intros y X. now apply append_else.
  - cbn [fst snd book]. split; [|reflexivity]. destruct (book c h) as [|l r].
    + rewrite firstn_nil in *. assert (E : d Base = None) by (rewrite H; reflexivity).
      intros y. destruct (closes c); [|apply H]. destruct (closing c) as [t|]; cbn [append_opt]; [|apply H].
      unfold append. rewrite E. apply H.
    + pose proof (shelf_base _ _ _ H) as E. destruct (closes c); [|exact H].
      apply (shelf_head d l); [exact H|now apply append_opt_base|]. intros y X. now apply append_opt_else.
Qed.

Lemma happened_shelf h d : happened c d0 h d -> forall x, d x = shelf (firstn n (book c h)) d0 x.
Proof.
  induction 1 as [B E|h d o Hh IH V].
  - intros x. cbn [book]. rewrite firstn_nil. destruct x as [|s|k]; cbn [shelf]; [exact B| |reflexivity].
    rewrite E. destruct (digit s) as [j|]; [now destruct j|reflexivity].
  - now apply step_shelf.
Qed.
End Rotation.
