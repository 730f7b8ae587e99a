(** The tables keep the values of each transaction. *)
From Coq Require Import String ZArith QArith List Bool Lia Permutation Sorted.
From Verif Require Import MvModel MvEvse MvSpec MvSpec2 MvProofs.
Import ListNotations.
Local Open Scope Z_scope.

(** The tables after insertions and deletions, the latest first; exceptions leave what was written. *)
Definition after (e : ended) (d : db) : db := match e with Done d' | QueryFailed d' | JsonThrew d' => d' | BadContext => d end.
Fixpoint tables (l : list store_op) : db :=
  match l with
  | [] => Db [] []
  | Ins fk tx m :: q => after (db_insert fk tx m (tables q)) (tables q)
  | Clr tx :: q => db_clear tx (tables q)
  end.

Definition agrees (items : list (Z * item)) (r : row) (p : string * mvalue) : Prop :=
  r_tx r = fst p /\ m_time (snd p) = from_ms (r_time r) /\ context_of (snd p) = Some (r_context r) /\ m_custom (snd p) = None /\
  samples_of (r_context r) (map snd (filter (fun x => fst x =? r_id r) items)) = Some (m_samples (snd p)).
Definition ok (d : db) (s : store) : Prop :=
  Forall2 (agrees (d_items d)) (d_rows d) s /\ NoDup (map r_id (d_rows d)) /\
  forall x, In x (d_items d) -> In (fst x) (map r_id (d_rows d)).

(** ** Items *)
(** What an earlier item left does not matter. *)
Definition fits (b : bound) (l : list sample) : Prop :=
  b_custom b = None /\ b_ucustom b = None /\
  ((b_location b = None /\ Forall (fun s => s_location s = None) l) \/ Forall (fun s => s_location s <> None) l) /\
  ((b_utext b = None /\ Forall (fun s => text_of s = None) l) \/ Forall (fun s => text_of s <> None) l) /\
  ((b_umult b = None /\ Forall (fun s => mult_of s = None) l) \/ Forall (fun s => mult_of s <> None) l).
Lemma bind_opt_val : forall A (x old : option A) , ((old = None /\ x = None) \/ x <> None) -> bind_opt x old = x.
Proof. intros A [x|] old H; [reflexivity|]. cbn. destruct H as [[-> _]|H]; [reflexivity|elim H; reflexivity]. Qed.
Lemma fits_head : forall (A : Type) (f : sample -> option A) (old : option A) s q,
  ((old = None /\ Forall (fun x => f x = None) (s :: q)) \/ Forall (fun x => f x <> None) (s :: q)) ->
  bind_opt (f s) old = f s /\ ((f s = None /\ Forall (fun x => f x = None) q) \/ Forall (fun x => f x <> None) q).
Proof.
  intros A f old s q [[-> F]|F]; inversion F; subst.
  - split; [destruct (f s); reflexivity|]. left. auto.
  - split; [apply bind_opt_val; right; assumption|]. right. assumption.
Qed.
Lemma bind_plain : forall c fk s q b, plain_sample c fk s -> fits b (s :: q) -> exists b1, bind_item s b = Some b1 /\ fits b1 q /\
  b_location b1 = s_location s /\ b_utext b1 = text_of s /\ b_umult b1 = mult_of s.
Proof.
  intros c fk s q b (C&K&U&_) (F1&F2&F3&F4&F5). apply fits_head in F3. apply fits_head in F4. apply fits_head in F5.
  destruct F3 as [L L']. destruct F4 as [T T']. destruct F5 as [M M']. unfold bind_item. rewrite K. cbn [bind_vendor].
  destruct (s_unit s) as [u|] eqn:US.
  - assert (TU : text_of s = u_text u) by (unfold text_of; rewrite US; reflexivity). assert (MU : mult_of s = u_mult u) by (unfold mult_of; rewrite US; reflexivity).
    destruct U as [U _]. rewrite U. cbn [bind_vendor]. eexists. split; [reflexivity|]. unfold fits. cbn [b_location b_custom b_ucustom b_utext b_umult].
    rewrite TU, MU in *. rewrite L, T, M, F1, F2. auto 10.
  - assert (TU : text_of s = None) by (unfold text_of; rewrite US; reflexivity). assert (MU : mult_of s = None) by (unfold mult_of; rewrite US; reflexivity).
    rewrite TU in *. rewrite MU in *. cbn [bind_opt] in T, M.
    eexists. split; [reflexivity|]. unfold fits. cbn [b_location b_custom b_ucustom b_utext b_umult]. rewrite L, F1, F2, T, M. auto 10.
Qed.
Lemma item_back : forall c fk s b, plain_sample c fk s -> b_location b = s_location s -> b_utext b = text_of s -> b_umult b = mult_of s ->
  b_custom b = None -> b_ucustom b = None -> sample_of c (item_of s b) = Some s /\ fk && negb (references_ok (item_of s b)) = false.
Proof.
  intros c fk s b (C&K&U&G&R) L T M F1 F2. split.
  - unfold sample_of, item_of. cbn. rewrite F1, F2, L, T, M. destruct s as [v m c0 p l g u k]. cbn in *. subst c0 k. do 2 f_equal.
    + destruct g as [[d e [mt|] [ky|]]|]; cbn in *; try reflexivity; destruct G as [G1 G2]; congruence.
    + unfold text_of, mult_of. cbn. destruct u as [[tt mm cc]|]; cbn in *; [|reflexivity]. destruct U as [-> [U|U]]; destruct tt, mm; cbn; congruence.
  - destruct fk; [|reflexivity]. destruct (R eq_refl) as [R1 R2]. unfold references_ok, item_of. cbn. rewrite L.
    apply negb_false_iff, andb_true_iff.
    split; [destruct (s_measurand s)|destruct (s_location s)]; try reflexivity; apply Z.leb_le; assumption.
Qed.
Lemma insert_plain : forall c fk l b, Forall (plain_sample c fk) l -> fits b l ->
  exists is, insert_items fk l b = Items is /\ samples_of c is = Some l.
Proof.
  intros c fk. induction l as [|s q IH]; intros b P F; [exists []; split; reflexivity|]. inversion P; subst.
  destruct (bind_plain c fk s q b H1 F) as (b1&B&F1&L&T&M). cbn [insert_items]. rewrite B. pose proof F1 as (K1&K2&_).
  destruct (item_back c fk s b1 H1 L T M K1 K2) as [S R]. rewrite R. destruct (IH b1 H2 F1) as (is&I&X). rewrite I. eexists. split; [reflexivity|].
  cbn [samples_of]. rewrite S, X. reflexivity.
Qed.
Lemma plain_fits : forall fk m, plain fk m -> fits (Bound None None None None None) (m_samples m).
Proof.
  intros fk m (_&_&_&L&T&M). unfold fits. cbn. unfold uniform in *. repeat split; intuition.
Qed.
Lemma bind_vendor_bad : forall j old, bind_vendor j old = None -> no_vendor j.
Proof. intros [[[v|] m|t]|] old E; try discriminate E; exact Logic.I. Qed.
Lemma insert_threw : forall fk l b, insert_items fk l b = ItemThrew ->
  exists s, In s l /\ (no_vendor (s_custom s) \/ match s_unit s with Some u => no_vendor (u_custom u) | None => False end).
Proof.
  intros fk. induction l as [|s q IH]; intros b E; [discriminate E|]. cbn [insert_items] in E. destruct (bind_item s b) as [b1|] eqn:B.
  - destruct (fk && _); [discriminate E|]. destruct (insert_items fk q b1) eqn:I; try discriminate E. destruct (IH b1 I) as (x&J&X). exists x. split; [right; exact J|exact X].
  - exists s. split; [left; reflexivity|]. unfold bind_item in B. destruct (bind_vendor (s_custom s) (b_custom b)) eqn:C; [|left; eapply bind_vendor_bad; exact C].
    destruct (s_unit s) as [u|]; [|discriminate B]. right. destruct (bind_vendor (u_custom u) (b_ucustom b)) eqn:D; [discriminate B|]. eapply bind_vendor_bad; exact D.
Qed.
Lemma db_insert_threw : forall fk tx m d d', db_insert fk tx m d = JsonThrew d' -> unwritable m.
Proof.
  intros fk tx m d d'. unfold db_insert, unwritable. destruct (m_samples m) as [|s0 q]; [discriminate|]. destruct (s_context s0); [|discriminate].
  destruct (existsb _ (s0 :: q)); [discriminate|]. destruct (existsb _ (d_rows d)); [discriminate|].
  destruct (insert_items _ _ _) eqn:I; try discriminate. intros _. exact (insert_threw _ _ _ I).
Qed.
(** ** Rows *)
Lemma new_id_fresh : forall d, ~ In (new_id d) (map r_id (d_rows d)).
Proof.
  intros d. unfold new_id. assert (H : forall l x, In x (map r_id l) -> x <= fold_right (fun r n => Z.max (r_id r) n) 0 l).
  { induction l as [|r q IH]; [intros x []|]. intros x [<-|I]; cbn [fold_right]; [lia|]. specialize (IH x I). lia. }
  intros I. apply H in I. lia.
Qed.
Lemma no_items : forall d s id, ok d s -> ~ In id (map r_id (d_rows d)) -> filter (fun x : Z * item => fst x =? id) (d_items d) = [].
Proof.
  intros d s id (_&_&H) N. induction (d_items d) as [|x q IH]; [reflexivity|]. cbn [filter]. destruct (fst x =? id) eqn:E.
  - apply Z.eqb_eq in E. elim N. rewrite <- E. apply H. left. reflexivity.
  - apply IH. intros y I. apply H. right. exact I.
Qed.
Lemma filter_own : forall id (l : list item), filter (fun x : Z * item => fst x =? id) (map (fun i => (id, i)) l) = map (fun i => (id, i)) l.
Proof. intros id. induction l as [|i q IH]; [reflexivity|]. cbn [map filter fst]. rewrite Z.eqb_refl, IH. reflexivity. Qed.
Lemma filter_other : forall id id' (l : list item), id <> id' -> filter (fun x : Z * item => fst x =? id') (map (fun i => (id, i)) l) = [].
Proof. intros id id' l N. induction l as [|i q IH]; [reflexivity|]. cbn [map filter fst]. replace (id =? id') with false by lia. exact IH. Qed.
Lemma Forall2_in_impl : forall A B (P Q : A -> B -> Prop) l l', (forall a b, In a l -> P a b -> Q a b) -> Forall2 P l l' -> Forall2 Q l l'.
Proof.
  intros A B P Q l l' H F. induction F as [|a b l l' F1 F2 IH]; constructor.
  - apply H; [left; reflexivity|exact F1].
  - apply IH. intros x y I. apply H. right. exact I.
Qed.
Lemma ms_from : forall t, ms t = from_ms (to_ms t).
Proof. intros t. reflexivity. Qed.
Lemma refused_row : forall d s tx m c, ok d s -> context_of m = Some c ->
  (existsb (same_row tx (to_ms (m_time m)) c) (d_rows d) = true <-> refused tx m s).
Proof.
  intros d s tx m c (F&_&_) C. unfold refused. rewrite C. induction F as [|r p rows q A F IH].
  - split; [discriminate|]. intros (m'&[]&_).
  - cbn [existsb]. rewrite orb_true_iff, IH. unfold same_row at 1. rewrite !andb_true_iff, String.eqb_eq, !Z.eqb_eq. destruct A as (A1&A2&A3&_).
    split.
    + intros [[[E1 E2] E3]|(m'&I&H)]; [|exists m'; split; [right; exact I|exact H]].
      destruct p as [tx' m']. cbn in *. exists m'. split; [left; congruence|]. rewrite ms_from. rewrite A2, A3, E2, E3. auto.
    + intros (m'&[->|I]&H1&H2); [left|right; exists m'; auto]. cbn in *. rewrite ms_from in H1. rewrite A2 in H1. rewrite A3 in H2.
      unfold from_ms in H1. split; [split|]; [assumption|lia|congruence].
Qed.
Lemma NoDup_snoc : forall A (l : list A) x, NoDup l -> ~ In x l -> NoDup (l ++ [x]).
Proof.
  intros A l x D N. apply (Permutation_NoDup (l := x :: l)); [apply Permutation_cons_append|]. constructor; assumption.
Qed.
Lemma insert_ok : forall fk tx m d s, ok d s -> plain fk m ->
  (refused tx m s -> after (db_insert fk tx m d) d = d) /\
  (~ refused tx m s -> ok (after (db_insert fk tx m d) d) (s ++ [(tx, to_the_ms m)])).
Proof.
  intros fk tx m d s O P. pose proof (plain_fits fk m P) as F. destruct P as (N&K&(c&PS)&_).
  unfold db_insert. destruct (m_samples m) as [|s0 q] eqn:S; [elim N; reflexivity|].
  assert (C : s_context s0 = Some c) by (inversion PS; subst; destruct H1; assumption). rewrite C.
  assert (X : existsb (fun x => negb (oeqb (s_context x) (Some c))) (s0 :: q) = false).
  { apply not_true_is_false. intros E. apply existsb_exists in E. destruct E as (x&I&E). rewrite Forall_forall in PS. destruct (PS x I) as [E1 _].
    rewrite E1 in E. rewrite (proj2 (oeqb_spec _ _) eq_refl) in E. discriminate E. }
  rewrite X. assert (CM : context_of m = Some c) by (unfold context_of; rewrite S; exact C).
  pose proof (refused_row d s tx m c O CM) as R. destruct (existsb (same_row tx (to_ms (m_time m)) c) (d_rows d)).
  { split; [reflexivity|]. intros NR. elim NR. apply R. reflexivity. }
  split; [intros Y; apply R in Y; discriminate Y|]. intros _. destruct (insert_plain c fk _ _ PS F) as (is&I&B). rewrite I. cbn [after].
  pose proof (new_id_fresh d) as FR. pose proof (no_items d s (new_id d) O FR) as NI. destruct O as (O1&O2&O3). set (id := new_id d) in *.
  unfold ok. cbn [d_rows d_items]. split; [|split].
  - apply Forall2_app.
    + revert O1. apply Forall2_in_impl. intros r p IR (A1&A2&A3&A4&A5). unfold agrees. rewrite filter_app, filter_other, app_nil_r; [auto|].
      intros E. apply FR. rewrite E. apply in_map. exact IR.
    + constructor; [|constructor]. unfold agrees. cbn [fst snd r_tx r_time r_context r_id]. rewrite filter_app, NI, filter_own.
      cbn [app]. rewrite map_map. cbn [snd]. rewrite map_id. unfold to_the_ms, context_of. cbn. rewrite S. auto 10.
  - rewrite map_app. cbn [map r_id]. apply NoDup_snoc; assumption.
  - intros x J. apply in_app_iff in J. rewrite map_app, in_app_iff. destruct J as [J|J]; [left; exact (O3 x J)|].
    apply in_map_iff in J. destruct J as (i&<-&_). right. left. reflexivity.
Qed.

Lemma NoDup_filtered : forall A (f : A -> Z) p l, NoDup (map f l) -> NoDup (map f (filter p l)).
Proof.
  intros A f p. induction l as [|x q IH]; intros N; [exact N|]. cbn [map] in N. inversion N; subst. cbn [filter]. destruct (p x).
  - cbn [map]. constructor; [|exact (IH H2)]. intros I. apply H1. apply in_map_iff in I. destruct I as (y&E&I). apply filter_In in I.
    rewrite <- E. apply in_map. exact (proj1 I).
  - exact (IH H2).
Qed.
Lemma one_row : forall (rows : list row) a b, NoDup (map r_id rows) -> In a rows -> In b rows -> r_id a = r_id b -> a = b.
Proof.
  intros rows a b N. induction rows as [|r q IH]; [intros []|]. cbn [map] in N. inversion N; subst. intros [->|Ia] [->|Ib] E; try reflexivity.
  - elim H1. rewrite E. apply in_map. exact Ib.
  - elim H1. rewrite <- E. apply in_map. exact Ia.
  - exact (IH H2 Ia Ib E).
Qed.
Lemma clear_ok : forall tx d s, ok d s -> ok (db_clear tx d) (without_tx tx s).
Proof.
  intros tx d s (O1&O2&O3). unfold db_clear. set (ids := map r_id (filter (fun r => String.eqb (r_tx r) tx) (d_rows d))).
  unfold ok. cbn [d_rows d_items].
  assert (IDS : forall r, In r (d_rows d) -> existsb (Z.eqb (r_id r)) ids = String.eqb (r_tx r) tx).
  { intros r I. destruct (String.eqb (r_tx r) tx) eqn:E.
    - apply existsb_exists. exists (r_id r). split; [|apply Z.eqb_refl]. apply in_map. apply filter_In. auto.
    - apply not_true_is_false. intros X. apply existsb_exists in X. destruct X as (y&J&Y). apply Z.eqb_eq in Y. subst y.
      apply in_map_iff in J. destruct J as (r'&E'&J). apply filter_In in J. destruct J as [J1 J2].
      rewrite (one_row _ r' r O2 J1 I E') in J2. congruence. }
  assert (KEEP : forall r, In r (d_rows d) -> String.eqb (r_tx r) tx = false ->
    filter (fun x : Z * item => fst x =? r_id r) (filter (fun p => negb (existsb (Z.eqb (fst p)) ids)) (d_items d)) =
    filter (fun x : Z * item => fst x =? r_id r) (d_items d)).
  { intros r I E. clear O1. induction (d_items d) as [|x q IH]; [reflexivity|]. assert (O3' : forall x, In x q -> In (fst x) (map r_id (d_rows d))) by (intros y J; apply O3; right; exact J).
    specialize (IH O3'). cbn [filter]. destruct (fst x =? r_id r) eqn:X.
    - apply Z.eqb_eq in X. assert (Y : existsb (Z.eqb (fst x)) ids = false) by (rewrite X, IDS by exact I; exact E). rewrite Y. cbn [negb filter].
      rewrite X, Z.eqb_refl, IH. reflexivity.
    - destruct (negb (existsb (Z.eqb (fst x)) ids)); [cbn [filter]; rewrite X|]; exact IH. }
  split; [|split].
  - revert KEEP. set (items := filter (fun p => negb (existsb (Z.eqb (fst p)) ids)) (d_items d)). clearbody items. clear IDS O2 O3. revert O1. unfold ids. generalize (d_rows d) as rows.
    intros rows O1 KEEP. induction O1 as [|r p rows q A F IH]; [constructor|]. unfold without_tx in *. cbn [filter].
    assert (K2 : forall r0, In r0 rows -> String.eqb (r_tx r0) tx = false -> filter (fun x : Z * item => fst x =? r_id r0) items = filter (fun x : Z * item => fst x =? r_id r0) (d_items d)).
    { intros r0 I. apply KEEP. right. exact I. }
    specialize (IH K2). pose proof A as (A1&A2&A3&A4&A5). destruct (string_dec (fst p) tx) as [E|E].
    + replace (String.eqb (r_tx r) tx) with true by (symmetry; apply String.eqb_eq; congruence). exact IH.
    + assert (X : String.eqb (r_tx r) tx = false) by (apply String.eqb_neq; congruence). rewrite X. cbn [negb]. constructor; [|exact IH].
      unfold agrees. rewrite KEEP; [exact A|left; reflexivity|exact X].
  - apply NoDup_filtered. exact O2.
  - intros x I. apply filter_In in I. destruct I as [I X]. pose proof (O3 x I) as J. apply in_map_iff in J. destruct J as (r&E&J).
    apply in_map_iff. exists r. split; [exact E|]. apply filter_In. split; [exact J|]. rewrite <- (IDS r J), E. exact X.
Qed.
Definition plain_op (o : store_op) : Prop := match o with Ins fk tx m => plain fk m | Clr _ => True end.
Lemma refused_dec : forall tx m s, refused tx m s \/ ~ refused tx m s.
Proof.
  intros tx m s. induction s as [|[tx' m'] q IH]; [right; intros (x&[]&_)|].
  destruct IH as [(x&I&H)|N]; [left; exists x; split; [right; exact I|exact H]|].
  destruct (string_dec tx' tx) as [E|E]; [|right; intros (x&[X|I]&H); [congruence|apply N; exists x; auto]].
  destruct (Z.eq_dec (m_time m') (ms (m_time m))) as [T|T]; [|right; intros (x&[X|I]&H); [destruct H; congruence|apply N; exists x; auto]].
  assert (DC : {context_of m' = context_of m} + {context_of m' <> context_of m}) by (decide equality; apply Z.eq_dec).
  destruct DC as [C|C]; [|right; intros (x&[X|I]&H); [destruct H; congruence|apply N; exists x; auto]].
  left. exists m'. split; [left; congruence|auto].
Qed.
Lemma tables_ok : forall l, Forall plain_op l -> exists s, kept l s /\ ok (tables l) s.
Proof.
  induction l as [|o q IH]; intros P.
  - exists []. split; [constructor|]. split; [constructor|]. split; [constructor|]. intros x [].
  - inversion P; subst. destruct (IH H2) as (s&K&O). destruct o as [fk tx m|tx]; cbn [tables plain_op] in *.
    + destruct (insert_ok fk tx m (tables q) s O H1) as [A B]. destruct (refused_dec tx m s) as [R|R].
      * exists s. split; [apply KeptRefuse; assumption|]. rewrite (A R). exact O.
      * exists (s ++ [(tx, to_the_ms m)]). split; [apply KeptAdd; assumption|exact (B R)].
    + exists (without_tx tx s). split; [apply KeptClr; exact K|]. apply clear_ok. exact O.
Qed.
(** ** Reading *)
Lemma place_perm : forall r l, Permutation (r :: l) (place r l).
Proof.
  intros r. induction l as [|x q IH]; [reflexivity|]. cbn [place]. destruct (row_before r x); [reflexivity|]. rewrite perm_swap. constructor. exact IH.
Qed.
Lemma sorted_perm : forall l, Permutation l (sorted l).
Proof. induction l as [|r q IH]; [reflexivity|]. cbn [sorted]. rewrite <- place_perm. constructor. exact IH. Qed.
Definition row_le (a b : row) : Prop := r_time a <= r_time b.
Lemma place_sorted : forall r l, StronglySorted row_le l -> StronglySorted row_le (place r l).
Proof.
  intros r. induction l as [|x q IH]; intros S; [repeat constructor|]. inversion S; subst. cbn [place]. unfold row_before.
  destruct (_ || _) eqn:E.
  - constructor; [exact S|]. assert (L : r_time r <= r_time x) by (apply orb_true_iff in E; rewrite andb_true_iff in E; lia).
    constructor; [exact L|]. revert H2. apply Forall_impl. intros y Y. unfold row_le in *. lia.
  - constructor; [exact (IH H1)|]. assert (L : r_time x <= r_time r) by (apply orb_false_iff in E; lia).
    apply (Permutation_Forall (place_perm r q)). constructor; [exact L|exact H2].
Qed.
Lemma sorted_sorted : forall l, StronglySorted row_le (sorted l).
Proof. induction l as [|r q IH]; [constructor|]. cbn [sorted]. apply place_sorted. exact IH. Qed.
Definition reads (d : db) (r : row) (m : mvalue) : Prop :=
  samples_of (r_context r) (items_of (r_id r) d) = Some (m_samples m) /\ m_time m = from_ms (r_time r) /\ m_custom m = None.
Lemma read_rows_ok : forall d l v, Forall2 (reads d) l v -> read_rows d l = Some v.
Proof.
  intros d l v F. induction F as [|r m l v (A&B&C) F IH]; [reflexivity|]. cbn [read_rows]. rewrite A, IH. do 2 f_equal. destruct m; cbn in *. congruence.
Qed.
Lemma rows_of_tx : forall d s tx, ok d s -> Forall2 (reads d) (filter (fun r => String.eqb (r_tx r) tx) (d_rows d)) (of_tx tx s).
Proof.
  intros d s tx (F&_). unfold of_tx. induction F as [|r p rows q (A1&A2&A3&A4&A5) F IH]; [constructor|]. cbn [filter].
  destruct (string_dec (fst p) tx) as [E|E].
  - replace (String.eqb (r_tx r) tx) with true by (symmetry; apply String.eqb_eq; congruence). cbn [map]. constructor; [|exact IH].
    unfold reads, items_of. auto.
  - replace (String.eqb (r_tx r) tx) with false by (symmetry; apply String.eqb_neq; congruence). exact IH.
Qed.
Lemma sorted_reads : forall d l v, Forall2 (reads d) l v -> StronglySorted row_le l -> StronglySorted earlier v.
Proof.
  intros d l v F S. induction F as [|r m l v (A&B&C) F IH]; [constructor|]. inversion S; subst. constructor; [exact (IH H1)|].
  clear IH S H1. induction F as [|r' m' l v (A'&B'&C') F IH]; [constructor|]. inversion H2; subst. constructor; [|exact (IH H3)].
  unfold earlier, row_le, from_ms in *. lia.
Qed.
Lemma get_all_ok : forall d s tx, ok d s -> exists v, db_get_all tx d = Some v /\ Permutation (of_tx tx s) v /\ StronglySorted earlier v.
Proof.
  intros d s tx O. pose proof (rows_of_tx d s tx O) as F. unfold db_get_all, rows_of.
  destruct (Permutation_Forall2 (sorted_perm (filter (fun r => String.eqb (r_tx r) tx) (d_rows d))) F) as (v&P&F').
  exists v. split; [apply read_rows_ok; exact F'|]. split; [exact P|]. exact (sorted_reads _ _ _ F' (sorted_sorted _)).
Qed.
