(** Proofs about the rotation of a log file: nothing is lost, no rotation, dates as extensions; histories as witnesses. *)
From Coq Require Import ZArith String Ascii List Bool Lia Permutation Sorted.
From Verif Require Import StrModel LogModel LogSpec LogProofs LogProofs2.
Import ListNotations.
Open Scope string_scope.
Open Scope list_scope.
Open Scope Z_scope.

(** Lines of the book. *)
Lemma turn_keeps c b x : In x (concat b) -> In x (concat (turn c b)).
Proof.
  unfold turn. destruct b as [|l r]; [easy|]. destruct (full c l); [|easy].
  cbn [concat]. rewrite !in_app_iff. tauto.
Qed.
Lemma turn_some c b : b <> [] -> turn c b <> [].
Proof. unfold turn. destruct b as [|l r]; [easy|]. now destruct (full c l). Qed.
Lemma book_some c h : (exists now ls, In (Start now ls) h) -> book c h <> [].
Proof.
  induction h as [|o h IH]; intros (now & ls & H); [easy|]. destruct H as [->|H].
  - cbn [book]. now destruct (turn c (book c h)).
  - assert (B : book c h <> []) by (apply IH; eauto). destruct o as [now' ls'|now' ls' x|]; cbn [book].
    + now destruct (turn c (book c h)).
    + pose proof (turn_some c _ B). now destruct (turn c (book c h)).
    + now destruct (book c h).
Qed.
Lemma book_keeps c o h x : In x (concat (book c h)) -> In x (concat (book c (o :: h))).
Proof.
  intros H. pose proof (turn_keeps c _ _ H) as T. destruct o as [now ls|now ls y|]; cbn [book].
  - destruct (turn c (book c h)) as [|l r]; [contradiction|]. cbn [concat] in *.
    rewrite in_app_iff in *. destruct T; [left|now right]. destruct (0 <? weight l); [assumption|apply in_app_iff; now left].
  - destruct (turn c (book c h)) as [|l r]; [contradiction|]. cbn [concat] in *. rewrite !in_app_iff in *. tauto.
  - destruct (book c h) as [|l r]; [contradiction|]. cbn [concat] in *. rewrite in_app_iff in *.
    destruct H; [left|now right]. destruct (closes c); [apply in_app_iff; now left|assumption].
Qed.
Lemma book_has c h1 h2 now ls x : (exists now ls, In (Start now ls) h2) -> In x (concat (book c (h1 ++ Write now ls x :: h2))).
Proof.
  intros H. induction h1 as [|o h1 IH].
  - cbn [app book]. pose proof (turn_some c _ (book_some c h2 H)) as B.
    destruct (turn c (book c h2)) as [|l r]; [congruence|]. cbn [concat]. rewrite !in_app_iff. left. right. now left.
  - now apply (book_keeps c o (h1 ++ Write now ls x :: h2)).
Qed.

(** No rotation. *)
Lemma turn_off c b : rotates c = false \/ max_size c <= 0 -> turn c b = b.
Proof.
  intros H. unfold turn, full. destruct b as [|l r]; [reflexivity|].
  destruct H as [->|H]; [reflexivity|]. destruct (Z.ltb_spec 0 (max_size c)); [lia|]. now rewrite andb_false_r.
Qed.
Lemma needed_off c now ls d : rotates c = false \/ max_size c <= 0 -> rotate_log_if_needed c now ls d = (d, NotRotated).
Proof.
  intros H. unfold rotate_log_if_needed. destruct H as [->|H]; [reflexivity|]. destruct (rotates c); [|reflexivity].
  cbn [negb]. now destruct (Z.leb_spec (max_size c) 0); [|lia].
Qed.
Lemma off_book c d0 h d : rotates c = false \/ max_size c <= 0 -> happened c d0 h d ->
  (List.length (book c h) <= 1)%nat /\ d Base = nth_error (book c h) 0 /\ forall x, x <> Base -> d x = d0 x.
Proof.
  intros H. induction 1 as [B E|h d o Hh IH V].
  - split; [cbn; lia|]. split; [exact B|reflexivity].
  - destruct IH as (I1 & I2 & I3). destruct o as [now ls|now ls y|]; cbn [step book].
    + rewrite needed_off, turn_off by exact H. cbn [fst].
      destruct (book c h) as [|l r]; cbn [nth_error] in I2.
      * assert (E : open_app d Base = Some []) by (rewrite open_base, I2; reflexivity).
        split; [cbn; lia|]. unfold first_tags, safe_file_size. rewrite E. cbn [size_of fold_right].
        split; [exact (append_opt_base _ [] _ E)|]. intros x X. cbn. rewrite append_opt_else, open_else by exact X. now apply I3.
      * assert (E : open_app d Base = Some l) by (rewrite open_base, I2; reflexivity).
        split; [exact I1|]. unfold first_tags, safe_file_size. rewrite E, size_weight. cbn [nth_error].
        destruct (0 <? weight l); (split; [first [exact E|now apply append_opt_base]|]); intros x X;
          rewrite ?append_opt_else, open_else by exact X; now apply I3.
    + rewrite needed_off, turn_off by exact H. cbn [fst].
      destruct (book c h) as [|l r]; cbn [nth_error] in I2.
      * split; [cbn; lia|]. unfold append. rewrite I2. split; [exact I2|exact I3].
      * split; [exact I1|]. split; [now apply append_base|]. intros x X. rewrite append_else by exact X. now apply I3.
    + cbn [fst]. destruct (book c h) as [|l r]; cbn [nth_error] in I2.
      * split; [cbn; lia|]. destruct (closes c); [|split; [exact I2|exact I3]].
        destruct (closing c) as [t|]; cbn [append_opt]; [|split; [exact I2|exact I3]].
        unfold append. rewrite I2. split; [exact I2|exact I3].
      * split; [exact I1|]. cbn [nth_error]. destruct (closes c); [|split; [exact I2|exact I3]].
        split; [now apply append_opt_base|]. intros x X. rewrite append_opt_else by exact X. now apply I3.
Qed.

(** Dates as extensions. *)
Lemma dated_loop c now l : dated c = true -> forall d st, NoDup l ->
  fold_left (rename_one c now) l (d, st) =
  if existsb (name_eqb Base) l then (rename d Base (Ext now), rotated st) else (d, st).
Proof.
  intros D. induction l as [|x l IH]; intros d st N; [reflexivity|]. inversion N; subst.
  cbn [fold_left existsb]. destruct x as [|s|k]; cbn [rename_one name_eqb orb]; rewrite ?D.
  - rewrite IH by assumption. destruct (existsb (name_eqb Base) l) eqn:E; [|reflexivity].
    apply existsb_exists in E as (y & Hy & E). destruct (name_eqb_spec Base y); [subst; contradiction|discriminate].
  - now apply IH.
  - now apply IH.
Qed.
Lemma dated_rotate c now ls d l : dated c = true -> d Base = Some l -> lists ls d ->
  (max_count c <= 0 \/ Z.of_nat (List.length (filter belongs ls)) < max_count c) ->
  rotate_log c now ls d = (rename d Base (Ext now), Rotated).
Proof.
  intros D B [N L] M. unfold rotate_log.
  assert (P : Permutation (filter belongs ls) (sort (filter belongs ls))) by apply sort_perm.
  rewrite <- (Permutation_length P).
  assert (G : (0 <? max_count c) && (max_count c <=? Z.of_nat (List.length (filter belongs ls))) = false).
  { apply andb_false_iff. destruct M as [M|M]; [left; apply Z.ltb_ge; exact M|right; apply Z.leb_gt; exact M]. }
  rewrite G. rewrite dated_loop; [|exact D|].
  - assert (E : existsb (name_eqb Base) (sort (filter belongs ls)) = true).
    { apply existsb_exists. exists Base. split; [|reflexivity]. eapply Permutation_in; [exact P|].
      apply filter_In. split; [|reflexivity]. apply L. congruence. }
    now rewrite E.
  - eapply Permutation_NoDup; [exact P|now apply NoDup_filter].
Qed.

(** Witnesses: the listing is computed from the names a file may have. *)
Definition name_dec (a b : name) : {a = b} + {a <> b}.
Proof. decide equality; [apply string_dec|apply Z.eq_dec]. Defined.
Inductive act := AStart (now : string) | AWrite (now : string) (x : line) | AStop.
Definition present (d : dir) (x : name) : bool := match d x with Some _ => true | None => false end.
Definition listing (a : act) (d : dir) (cand : list name) : list name :=
  match a with
  | AStart _ => filter (fun x => name_eqb x Base || present d x) (nodup name_dec (Base :: cand))
  | _ => filter (present d) (nodup name_dec cand)
  end.
Definition fill (a : act) (ls : list name) : op :=
  match a with AStart now => Start now ls | AWrite now x => Write now ls x | AStop => Stop end.
Definition new_names (a : act) (ls : list name) : list name :=
  Base :: Ext "0" :: (match a with AStart now => [Ext now] | AWrite now _ => [Ext now] | AStop => [] end) ++
  flat_map (fun x => match x with Ext e => match stoi e with Ret n => [Ext (to_string (n + 1))] | _ => [] end | _ => [] end) ls.
Definition auto (c : cfg) (s : dir * list name * list op) (a : act) : dir * list name * list op :=
  let '(d, cand, h) := s in
  let ls := listing a d cand in
  let o := fill a ls in
  (fst (step c d o), nodup name_dec (new_names a ls ++ cand), o :: h).
Definition play (c : cfg) (l : list act) : dir * list name * list op := fold_left (auto c) l (fun _ => None, [], []).

Lemma present_spec d x : present d x = true <-> d x <> None.
Proof. unfold present. destruct (d x); split; congruence. Qed.

Lemma put_dom d x v y : put d x v y <> None -> d y <> None \/ (y = x /\ v <> None).
Proof. unfold put. destruct (name_eqb_spec y x); auto. Qed.
Lemma rename_dom d a b y : rename d a b y <> None -> d y <> None \/ y = b.
Proof.
  unfold rename. destruct (name_eqb a b); [auto|]. intros H. apply put_dom in H as [H|[_ H]]; [|congruence].
  apply put_dom in H as [H|[H _]]; auto.
Qed.
Lemma append_opt_dom d t y : append_opt d t y <> None -> d y <> None.
Proof.
  destruct t as [x|]; [|auto]. cbn [append_opt]. unfold append. destruct (d Base) eqn:E; [|auto].
  intros H. apply put_dom in H as [H|[-> _]]; congruence.
Qed.
Lemma open_dom d y : open_app d y <> None -> d y <> None \/ y = Base.
Proof. unfold open_app. destruct (d Base); [auto|]. intros H. apply put_dom in H as [H|[H _]]; auto. Qed.

Definition named (now : string) (ls : list name) (y : name) : Prop :=
  y = Base \/ y = Ext "0" \/ y = Ext now \/ exists e n, In (Ext e) ls /\ stoi e = Ret n /\ y = Ext (to_string (n + 1)).
Lemma loop_dom c now ls y : forall l d st, (forall x, In x l -> In x ls) ->
  fst (fold_left (rename_one c now) l (d, st)) y <> None -> d y <> None \/ named now ls y.
Proof.
  induction l as [|x l IH]; intros d st S H; [now left|]. cbn [fold_left] in H.
  assert (S' : forall z, In z l -> In z ls) by (intros z Hz; apply S; now right).
  destruct (rename_one c now (d, st) x) as [d1 st1] eqn:E. apply IH in H; [|exact S'].
  destruct H as [H|H]; [|now right].
  destruct x as [|e|k]; cbn [rename_one] in E.
  - injection E as <- _. apply rename_dom in H as [H|H]; [now left|right]. unfold named. destruct (dated c); auto.
  - destruct (dated c); [injection E as <- _; now left|].
    destruct (stoi e) as [n|w] eqn:Q; [|injection E as <- _; now left].
    destruct (n =? int_max); injection E as <- _; [now left|]. apply rename_dom in H as [H|H]; [now left|].
    right. right. right. right. exists e, n. split; [apply S; now left|]. split; [exact Q|exact H].
  - injection E as <- _. now left.
Qed.
Lemma rotate_dom c now ls d y : fst (rotate_log c now ls d) y <> None -> d y <> None \/ named now ls y.
Proof.
  unfold rotate_log.
  assert (S : forall x, In x (sort (filter belongs ls)) -> In x ls).
  { intros x Hx. apply (Permutation_in _ (Permutation_sym (sort_perm _))) in Hx. now apply filter_In in Hx. }
  destruct ((0 <? max_count c) && _); [|now apply loop_dom].
  destruct (sort (filter belongs ls)) as [|f r]; [now apply loop_dom|].
  intros H. apply (loop_dom c now ls) in H; [|intros x Hx; apply S; now right].
  destruct H as [H|H]; [|now right]. apply put_dom in H as [H|[_ H]]; [now left|congruence].
Qed.
Lemma needed_dom c now ls d y : fst (rotate_log_if_needed c now ls d) y <> None -> d y <> None \/ named now ls y.
Proof.
  unfold rotate_log_if_needed. destruct (rotates c); cbn [negb]; [|now left]. destruct (max_size c <=? 0); [now left|].
  destruct (max_size c <=? safe_file_size d Base); [|now left].
  pose proof (rotate_dom c now ls (append_opt d (closing c)) y) as R.
  destruct (rotate_log c now ls (append_opt d (closing c))) as [d1 st]. cbn [fst] in *.
  intros H. apply append_opt_dom in H. apply open_dom in H as [H|H]; [|right; now left].
  apply R in H as [H|H]; [left; now apply append_opt_dom in H|now right].
Qed.
Lemma named_new now ls y a : (a = AStart now \/ exists x, a = AWrite now x) -> named now ls y -> In y (new_names a ls).
Proof.
  intros A [->|[->|[->|(e & n & I & Q & ->)]]]; unfold new_names.
  - now left.
  - right. now left.
  - right. right. apply in_app_iff. left. destruct A as [->|(x & ->)]; now left.
  - right. right. apply in_app_iff. right. apply in_flat_map. exists (Ext e). split; [exact I|]. rewrite Q. now left.
Qed.

Definition covered (s : dir * list name * list op) (c : cfg) : Prop :=
  let '(d, cand, h) := s in happened c (fun _ => None) h d /\ forall x, d x <> None -> In x cand.
Lemma auto_covered c s a : covered s c -> covered (auto c s a) c.
Proof.
  destruct s as [[d cand] h]. cbn [covered auto]. intros [H K]. split.
  - apply hp_step; [exact H|]. destruct a as [now|now x|]; cbn [fill sees listing]; [| |exact Logic.I].
    + split; [apply NoDup_filter, NoDup_nodup|]. intros x. rewrite filter_In, nodup_In, orb_true_iff, present_spec.
      destruct (name_eqb_spec x Base) as [->|X]; [split; [now left|intros _; split; [now left|now left]]|].
      split; [intros [_ [Y|Y]]; [discriminate|now right]|].
      intros [Y|Y]; [contradiction|]. split; [right; now apply K|now right].
    + split; [apply NoDup_filter, NoDup_nodup|]. intros y. rewrite filter_In, nodup_In, present_spec.
      split; [tauto|]. intros Y. split; [now apply K|exact Y].
  - intros y Y. apply nodup_In, in_app_iff. destruct a as [now|now x|]; cbn [fill step] in Y.
    + set (ls := listing (AStart now) d cand) in *.
      pose proof (needed_dom c now ls (open_app d) y) as R.
      destruct (rotate_log_if_needed c now ls (open_app d)) as [d1 st]. cbn [fst] in *.
      assert (Y1 : d1 y <> None) by (unfold first_tags in Y; destruct (0 <? safe_file_size d1 Base); [exact Y|now apply append_opt_dom in Y]).
      apply R in Y1 as [Y1|Y1].
      * apply open_dom in Y1 as [Y1| ->]; [right; now apply K|left; now left].
      * left. apply (named_new now); [now left|exact Y1].
    + set (ls := listing (AWrite now x) d cand) in *.
      pose proof (needed_dom c now ls d y) as R.
      destruct (rotate_log_if_needed c now ls d) as [d1 st]. cbn [fst] in *.
      apply (append_opt_dom d1 (Some x)) in Y. apply R in Y as [Y|Y]; [right; now apply K|].
      left. apply (named_new now); [right; now exists x|exact Y].
    + cbn [fst] in Y. right. apply K. destruct (closes c); [now apply append_opt_dom in Y|exact Y].
Qed.
Lemma play_covered c l : covered (play c l) c.
Proof.
  unfold play. assert (H : covered (fun _ => None, [], []) c).
  { cbn [covered]. split; [|intros x X; congruence]. now apply hp_none. }
  revert H. generalize ((fun _ : name => @None (list line)), @nil name, @nil op).
  induction l as [|a l IH]; intros s H; [exact H|]. cbn [fold_left]. apply IH. now apply auto_covered.
Qed.
Lemma play_happened c l : happened c (fun _ => None) (snd (play c l)) (fst (fst (play c l))).
Proof. pose proof (play_covered c l) as H. destruct (play c l) as [[d cand] h]. exact (proj1 H). Qed.

Definition lost (s : dir * list name * list op) (x : line) : bool :=
  let '(d, cand, _) := s in
  forallb (fun n => match d n with Some l => negb (existsb (fun y => text y =? text x) l) | None => true end) cand.
Lemma lost_spec c l x : lost (play c l) x = true -> ~ kept (fst (fst (play c l))) x.
Proof.
  pose proof (play_covered c l) as H. destruct (play c l) as [[d cand] h]. cbn [covered lost fst] in *.
  intros L (n & m & E & I). rewrite forallb_forall in L. specialize (L n ltac:(apply (proj2 H); congruence)).
  rewrite E in L. apply negb_true_iff in L. apply Bool.not_true_iff_false in L. apply L. apply existsb_exists.
  exists x. split; [exact I|apply Z.eqb_refl].
Qed.
