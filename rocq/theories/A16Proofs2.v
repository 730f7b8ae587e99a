(** Proofs about A16Model: histories. *)
From Coq Require Import String ZArith NArith List Bool Lia Sorting.Sorted.
From Verif Require Import A16Model A16Spec A16Proofs.
Import ListNotations.
Local Open Scope Z_scope.

(** ** Updates of the list *)
Lemma changes_get : forall l s t, get t (entries (fold_left exec (map change_of l) s)) = match last_of t l with Some x => x | None => get t (entries s) end.
Proof.
  induction l as [ | [k x] r IH ]; intros s t; auto. cbn [map fold_left last_of]. rewrite IH. destruct (last_of t r); auto.
  unfold change_of. cbn [snd fst]. destruct x as [ i | ]; cbn [exec entries set_entries].
  - rewrite get_put. destruct (String.eqb_spec k t), (string_dec k t); congruence.
  - rewrite get_del. destruct (String.eqb_spec k t), (string_dec k t); congruence.
Qed.
Lemma changes_else : forall l s, cache (fold_left exec (map change_of l) s) = cache s /\ version (fold_left exec (map change_of l) s) = version s.
Proof.
  induction l as [ | [k x] r IH ]; intros s; auto. cbn [map fold_left]. destruct (IH (exec s (change_of (k, x)))) as [A B]. rewrite A, B.
  unfold change_of. cbn [snd fst]. destruct x; auto.
Qed.
(** What an update makes of the tables. *)
Lemma send_spec : forall g u v l s,
  let s' := fst (step (SendList g u v l) s) in
  let o := snd (step (SendList g u v l) s) in
  cache s' = cache s
  /\ (forall t, get t (entries s') = told1 t (get t (entries s)) (SendList g u v l, o))
  /\ (forall x, version s = Some x -> version s' = Some (vers1 x (SendList g u v l, o)))
  /\ exists r, o = [OList r].
Proof.
  intros g u v l s. cbn [step]. unfold plan. destruct (enabled g); [ | destruct u, l; cbn; repeat split; eauto ].
  destruct u, l as [ l | ].
  - cbn [fst snd fold_left]. destruct (changes_else l (exec (exec s SClear) (SVersion v))) as [A B]. rewrite A, B. split; [ auto | split; [ | split; eauto ] ].
    intros t. rewrite changes_get. cbn. destruct (last_of t l); auto.
  - cbn [fst snd fold_left exec]. cbn. repeat split; eauto.
  - destruct (version s) as [ old | ] eqn:V.
    + destruct (old <? v).
      * cbn [fst snd fold_left]. destruct (changes_else l (exec s (SVersion v))) as [A B]. rewrite A, B. split; [ auto | split; [ | split; eauto ] ].
        intros t. rewrite changes_get. cbn. destruct (last_of t l); auto.
      * cbn. rewrite V. repeat split; eauto.
    + cbn. split; [ auto | split; [ auto | split; [ discriminate | eauto ] ] ].
  - cbn. repeat split; eauto.
Qed.

(** ** One step *)
Definition said1 (f : string -> option info) (e : op * list out) : string -> option info := fun t => told1 t (f t) e.
Definition words1 (w : string -> option info) (e : op * list out) : string -> option info := fun t => word1 t (w t) e.
Definition next (T : Z) (o : op) : Z := last (times o) T.
Definition steady (T : Z) (o : op) : Prop := match o with Authorize _ _ e _ _ _ _ => ordered T e | Pnc _ _ _ e _ _ _ _ => ordered T e | _ => True end.
Lemma step_linked : forall T o s f w, whole o -> steady T o -> linked T s f w ->
  linked (next T o) (fst (step o s)) (said1 f (o, snd (step o s))) (words1 w (o, snd (step o s))).
Proof.
  intros T o s f w W L H. destruct o; try (destruct H as [HA HB]; split; intros t; cbn; auto; fail).
  - cbn [step steady] in *. assert (X := authorize_spec g c T e tag only_locally a price s f w L H).
    destruct (authorize g c e tag only_locally a price s) as [s1 r]. destruct X as [_ [A B]]. cbn [fst snd]. unfold next, said1, words1. cbn.
    split; auto.
  - cbn [step steady] in *. assert (X := pnc_linked g p c T e emaid hashes cert reply s f w L H).
    destruct (pnc g p c e emaid hashes cert reply s) as [s1 r]. cbn [fst snd] in *. exact X.
  - destruct H as [HA HB]. split; auto. intros t. cbn [step fst snd cache set_cache next times last]. unfold words1. cbn [word1].
    rewrite get_put. destruct (String.eqb_spec tag t), (string_dec tag t); try congruence; auto. apply same_refl.
  - destruct H as [HA HB]. cbn [step]. destruct (c_cache g); split; auto; intros t; exact Logic.I.
  - destruct H as [HA HB]. destruct (send_spec g u v l s) as (A & B & _ & r & D). split.
    + intros t. rewrite B. unfold said1. rewrite D. unfold told1.
      destruct u, l as [ l | ], r; auto; try (destruct (last_of t l); auto; apply same_refl); apply same_refl.
    + intros t. rewrite A. unfold words1, word1. auto.
  - destruct W.
  - destruct H as [HA HB]. cbn [step]. unfold get_version. destruct (enabled g); [ | split; auto ]. destruct (entries s) eqn:E; rewrite <- E in HA.
    + split; [ exact HA | exact HB ].
    + destruct (version s); split; try exact HA; exact HB.
  - destruct H as [HA HB]. cbn [step]. destruct (version s); split; auto.
Qed.

(** ** Histories *)
Lemma sorted_app : forall a b, Sorted Z.le (a ++ b) -> Sorted Z.le a /\ Sorted Z.le b /\ forall x y, In x a -> In y b -> x <= y.
Proof.
  intros a b H. assert (S : StronglySorted Z.le (a ++ b)) by (apply Sorted_StronglySorted; auto; intros x y z; lia).
  clear H. assert (G : StronglySorted Z.le a /\ StronglySorted Z.le b /\ forall x y, In x a -> In y b -> x <= y).
  { induction a as [ | x a IH ]; cbn in *. { repeat split; auto. constructor. intros x y []. }
    inversion S as [ | x' l SS F ]; subst. destruct (IH SS) as (A & B & C). rewrite Forall_app in F. destruct F as [F1 F2]. repeat split; auto.
    - constructor; auto.
    - intros p r [ -> | P ] R; auto. rewrite Forall_forall in F2. auto. }
  destruct G as (A & B & C). repeat split; auto; now apply StronglySorted_Sorted.
Qed.
Lemma steady_of : forall T o r, Sorted Z.le (T :: flat_map times (o :: r)) -> steady T o /\ Sorted Z.le (next T o :: flat_map times r).
Proof.
  intros T o r H. cbn [flat_map] in H.
  assert (G : forall e, Sorted Z.le (T :: times_of e ++ flat_map times r) -> ordered T e /\ Sorted Z.le (t_again e :: flat_map times r)).
  { intros e S. cbn in S. inversion S as [ | a b S1 H1 ]; subst. inversion S1 as [ | a b S2 H2 ]; subst. inversion S2 as [ | a b S3 H3 ]; subst. inversion S3 as [ | a b S4 H4 ]; subst.
    inversion H1; subst. inversion H2; subst. inversion H3; subst. inversion H4; subst. unfold ordered. auto 10. }
  destruct o; cbn [times steady next last] in *; auto; apply G in H; auto.
Qed.
Lemma run_linked : forall h T s f w, Forall whole h -> Sorted Z.le (T :: flat_map times h) -> linked T s f w ->
  exists T', linked T' (run h s) (fun t => fold_left (told1 t) (events h s) (f t)) (fun t => fold_left (word1 t) (events h s) (w t))
    /\ forall r, Sorted Z.le (T :: flat_map times (h ++ r)) -> Sorted Z.le (T' :: flat_map times r).
Proof.
  induction h as [ | o h IH ]; intros T s f w W L H. { exists T. split; auto. }
  inversion W; subst. destruct (steady_of _ _ _ L) as [A B]. assert (X := step_linked T o s f w H2 A H).
  destruct (IH _ _ _ _ H3 B X) as (T' & Y & Z). exists T'. split; auto. intros r S. apply Z. now apply (steady_of T o (h ++ r)).
Qed.
Lemma initial_linked : forall T, linked T initial (fun _ => None) (fun _ => None).
Proof. intros T. split; intros t; exact Logic.I. Qed.
Lemma start_time : forall l : list Z, Sorted Z.le l -> exists T, Sorted Z.le (T :: l).
Proof. intros [ | x l ] H. - exists 0. repeat constructor. - exists x. constructor; auto. constructor. lia. Qed.
(** The state after a history and what was said. *)
Lemma history : forall h r, Forall whole h -> ticking (h ++ r) ->
  exists T, linked T (run h initial) (fun t => told t (events h initial)) (fun t => word t (events h initial)) /\ Sorted Z.le (T :: flat_map times r).
Proof.
  intros h r W L. destruct (start_time _ L) as [T0 S0].
  assert (S1 : Sorted Z.le (T0 :: flat_map times h)).
  { rewrite flat_map_app in S0. apply (sorted_app (T0 :: flat_map times h) (flat_map times r)). exact S0. }
  destruct (run_linked h T0 initial _ _ W S1 (initial_linked T0)) as (T & X & Y). exists T. split; auto.
Qed.

(** ** Any clock *)
Definition weak (stored said : option info) : Prop := exists T, same T stored said.
Lemma weak_cases : forall x y, weak x y <-> match x, y with
  | None, None => True
  | Some i, Some j => i_expiry i = i_expiry j /\ i_parent i = i_parent j /\ (i_status i = i_status j \/ i_status i = Expired /\ i_expiry j <> None)
  | _, _ => False end.
Proof.
  intros [ i | ] [ j | ]; split; try (intros [T H]; exact H); try tauto.
  - intros [T (A & B & [ C | [C (z & D & E)] ])]; repeat split; auto. right. split; auto. congruence.
  - intros (A & B & C). destruct (i_expiry j) as [ z | ] eqn:E.
    + exists z. split; [ congruence | ]. split; auto. destruct C as [ C | [C _] ]; auto. right. split; auto. exists z. split; auto. lia.
    + exists 0. split; [ congruence | ]. split; auto. destruct C as [ C | [_ C] ]; auto. congruence.
  - intros _. exists 0. exact Logic.I.
Qed.
Lemma expire_spec : forall now i, expire now i = if match i_status i with Expired => false | _ => pastb now i end then Some (Info Expired (i_expiry i) (i_parent i)) else None.
Proof. intros now i. unfold expire, pastb. destruct (i_status i), (i_expiry i) as [ x | ]; auto; destruct (x <=? now); auto. Qed.
Lemma look_weak : forall now tag l said, weak (get tag l) said ->
  weak (get tag (fst (look now tag l))) said
  /\ weak (snd (look now tag l)) said
  /\ (forall i, snd (look now tag l) = Some i -> i_status i = Accepted -> said = Some i /\ pastb now i = false)
  /\ (forall t, t <> tag -> get t (fst (look now tag l)) = get t l).
Proof.
  intros now tag l said S. unfold look. destruct (get tag l) as [ i | ] eqn:G.
  2:{ cbn [fst snd]. rewrite G. repeat split; auto; discriminate. }
  rewrite weak_cases in S. destruct said as [ j | ]; [ | destruct S ]. destruct S as (A & B & C).
  rewrite expire_spec. destruct (match i_status i with Expired => false | _ => pastb now i end) eqn:E.
  - cbn [fst snd]. rewrite get_put, String.eqb_refl. rewrite !weak_cases. cbn [i_status i_expiry i_parent].
    assert (X : i_expiry j <> None). { rewrite <- A. unfold pastb in E. destruct (i_status i), (i_expiry i); congruence. }
    split; [ auto | split; [ auto | split ] ].
    + intros k K. inversion K; subst. discriminate.
    + intros t N. rewrite get_put. destruct (String.eqb_spec tag t); auto. congruence.
  - cbn [fst snd]. rewrite G. rewrite !weak_cases. split; [ auto | split; [ auto | split; auto ] ].
    intros k K Q. inversion K; subst k. destruct C as [ C | [C _] ]; [ | congruence ]. rewrite Q in E. split; auto. f_equal. destruct i as [a b c], j as [a' b' c']. cbn in *. congruence.
Qed.
Definition wlinked (s : st) (f w : string -> option info) : Prop := (forall t, weak (get t (entries s)) (f t)) /\ forall t, weak (get t (cache s)) (w t).
Lemma look_wlist : forall now tag s f w, wlinked s f w -> wlinked (set_entries s (fst (look now tag (entries s)))) f w
  /\ forall i, snd (look now tag (entries s)) = Some i -> i_status i = Accepted -> f tag = Some i /\ pastb now i = false.
Proof.
  intros now tag s f w [A B]. destruct (look_weak now tag (entries s) (f tag) (A tag)) as (X & _ & Y & Z). split; auto. split; auto. cbn [entries set_entries].
  intros t. destruct (string_dec t tag) as [ -> | N ]; auto. rewrite Z; auto.
Qed.
Lemma look_wcache : forall now tag s f w, wlinked s f w -> wlinked (set_cache s (fst (look now tag (cache s)))) f w
  /\ forall i, snd (look now tag (cache s)) = Some i -> i_status i = Accepted -> w tag = Some i /\ pastb now i = false.
Proof.
  intros now tag s f w [A B]. destruct (look_weak now tag (cache s) (w tag) (B tag)) as (X & _ & Y & Z). split; auto. split; auto. cbn [cache set_cache].
  intros t. destruct (string_dec t tag) as [ -> | N ]; auto. rewrite Z; auto.
Qed.
Lemma validate_weak : forall e tag s f w, wlinked s f w -> wlinked (fst (validate e tag s)) f w.
Proof.
  intros e tag s f w H. unfold validate. destruct (f_cache e); auto. destruct (look_wcache (t_cache e) tag s f w H) as [X Y].
  destruct (look_weak (t_cache e) tag (cache s) (w tag) (proj2 H tag)) as (_ & V & _).
  destruct (look (t_cache e) tag (cache s)) as [l r]. cbn [fst snd] in *. destruct r as [ i | ]; auto. destruct (is_accepted i); auto. destruct (i_expiry i) as [ x | ] eqn:E; auto.
  destruct (x <? t_valid e); auto. destruct X as [XA XB]. split; auto. cbn [fst cache set_cache]. intros t. rewrite get_put. destruct (String.eqb_spec tag t) as [ <- | N ]; [ | apply XB ].
  rewrite weak_cases in *. destruct (w tag) as [ j | ]; [ | destruct V ]. destruct V as (V1 & V2 & _). cbn [i_status i_expiry i_parent]. rewrite <- E. repeat split; auto. right. split; auto. rewrite <- V1, E. discriminate.
Qed.
Lemma locally_weak : forall g c e tag s f w, wlinked s f w ->
  wlinked (fst (locally g c e tag s)) f w
  /\ (forall i t b, snd (locally g c e tag s) = Some (Res i t b) -> b = false /\ local_ok g c = true
      /\ (i_status i = Accepted -> (c_list g = true /\ f tag = Some i /\ pastb (t_list e) i = false) \/ (c_cache g = true /\ w tag = Some i /\ pastb (t_again e) i = false))).
Proof.
  intros g c e tag s f w H. unfold locally.
  replace ((c_pre g && online c) || (c_off g && negb (online c))) with (local_ok g c) by (unfold local_ok; destruct c; cbn [online negb]; rewrite ?andb_false_r, ?andb_true_r, ?orb_false_r; auto).
  destruct (local_ok g c); [ | cbn; split; auto; discriminate ].
  assert (NT : forall i j t b, with_tariff g c i = Res j t b -> b = false /\ i = j) by (intros i j t b; unfold with_tariff; destruct (i_status i), (c_price g), c; intros E; inversion E; auto).
  assert (X : wlinked (fst (in_list g e tag s)) f w /\ forall i, snd (in_list g e tag s) = Some i -> i_status i = Accepted -> c_list g = true /\ f tag = Some i /\ pastb (t_list e) i = false).
  { unfold in_list. destruct (c_list g && negb (f_list e)) eqn:C; [ | cbn; split; auto; discriminate ]. destruct (look_wlist (t_list e) tag s f w H) as [X Y].
    destruct (look (t_list e) tag (entries s)). cbn [fst snd] in *. split; auto. intros i E A. destruct (Y i E A). apply andb_prop in C as [C _]. auto. }
  destruct (in_list g e tag s) as [s1 r]. cbn [fst snd] in X. destruct X as [X Y]. destruct r as [ i | ].
  - cbn [fst snd]. rewrite local_result_spec. split; auto. intros j t b E. inversion E as [E']. apply NT in E' as [ -> -> ]. split; auto.
  - clear Y. assert (Z : wlinked (fst (in_cache g e tag s1)) f w /\ forall i, snd (in_cache g e tag s1) = Some (Some i) -> i_status i = Accepted -> c_cache g = true /\ w tag = Some i /\ pastb (t_again e) i = false).
    { unfold in_cache. destruct (c_cache g); [ | cbn; split; auto; discriminate ]. assert (V := validate_weak e tag s1 f w X). destruct (validate e tag s1) as [s2 [ [ | ] | ]]; cbn [fst snd] in *; try (split; auto; discriminate).
      destruct (f_again e); [ cbn; split; auto; discriminate | ]. destruct (look_wcache (t_again e) tag s2 f w V) as [P Q]. destruct (look (t_again e) tag (cache s2)). cbn [fst snd] in *. split; auto.
      intros i E A. inversion E; subst. destruct (Q i eq_refl A). auto. }
    destruct (in_cache g e tag s1) as [s2 r]. cbn [fst snd] in Z. destruct Z as [Z1 Z2]. destruct r as [ [ i | ] | ]; cbn [fst snd]; try (split; auto; discriminate).
    rewrite local_result_spec. split; auto. intros j t b E. inversion E as [E']. apply NT in E' as [ -> -> ]. split; auto.
Qed.
Lemma authorize_weak : forall g c e tag o a p s f w, wlinked s f w ->
  let '(s', r) := authorize g c e tag o a p s in
  wlinked s' f (after_word tag a r w)
  /\ forall i t b, r = Res i t b -> i_status i = Accepted ->
       b = false /\ local_ok g c = true /\ ((c_list g = true /\ f tag = Some i /\ pastb (t_list e) i = false) \/ (c_cache g = true /\ w tag = Some i /\ pastb (t_again e) i = false))
       \/ b = true /\ o = false /\ (a = Conf i \/ a = WhenOffline /\ c_unknown g = true).
Proof.
  intros g c e tag o a p s f w H. unfold authorize. destruct (locally_weak g c e tag s f w H) as [X Y].
  destruct (locally g c e tag s) as [s1 [ r | ]]; cbn [fst snd] in X, Y.
  - split.
    + destruct X as [XA XB]. split; auto. intros t. unfold after_word. destruct a; auto. destruct r as [i0 t0 [ | ] | ]; auto. destruct (Y _ _ _ eq_refl) as [E _]. discriminate.
    + intros i t b -> A. left. destruct (Y _ _ _ eq_refl) as (E1 & E2 & E3). auto.
  - destruct o.
    + split; [ destruct X as [XA XB]; split; auto; intros t; unfold after_word; destruct a; auto | ]. intros i t b E A. inversion E; subst. discriminate.
    + destruct a as [ i | | | ].
      * split.
        -- destruct X as [XA XB]. split; auto. cbn [cache set_cache]. intros t. unfold after_word. rewrite get_put.
           destruct (String.eqb_spec tag t), (string_dec tag t); try congruence; auto. exists 0. apply same_refl.
        -- intros j t b E A. right. inversion E; subst. auto.
      * split; auto. intros i t b E A. inversion E; subst. discriminate.
      * split; auto. intros i t b E A. inversion E; subst. destruct (c_unknown g) eqn:U; [ | discriminate ]. right. auto.
      * split; auto. intros i t b E A. inversion E; subst. discriminate.
Qed.
Lemma pnc_weak : forall g p c e m h x r s f w, wlinked s f w -> wlinked (fst (pnc g p c e m h x r s)) f w.
Proof.
  intros g p c e m h x r s f w H. unfold pnc. destruct (p_enabled p); auto. destruct c; auto; cbn [online].
  - cbn [andb]. destruct x as [[v made] | ]; auto. destruct (p_offline p); auto. destruct v; auto. destruct (c_off g); auto.
    destruct (20 <? Z.of_nat (String.length m)); auto.
    assert (Y := authorize_weak g Offline e m true NoConf None s f w H). destruct (authorize g Offline e m true NoConf None s) as [s1 [i t b | ]]; destruct Y as [[A B] _]; split; auto.
  - cbn [andb]. destruct h; auto. destruct x as [[v made] | ]; auto. destruct v, made, (p_central p); auto.
Qed.
Lemma step_weak : forall o s f w, whole o -> wlinked s f w -> wlinked (fst (step o s)) (said1 f (o, snd (step o s))) (words1 w (o, snd (step o s))).
Proof.
  intros o s f w W H. destruct o; try (destruct H as [HA HB]; split; intros t; cbn; auto; fail).
  - cbn [step]. assert (X := authorize_weak g c e tag only_locally a price s f w H).
    destruct (authorize g c e tag only_locally a price s) as [s1 r]. destruct X as [[A B] _]. cbn [fst snd]. unfold said1, words1. cbn.
    split; auto.
  - cbn [step]. assert (X := pnc_weak g p c e emaid hashes cert reply s f w H).
    destruct (pnc g p c e emaid hashes cert reply s) as [s1 r]. exact X.
  - destruct H as [HA HB]. split; auto. intros t. cbn [step fst snd cache set_cache]. unfold words1. cbn [word1].
    rewrite get_put. destruct (String.eqb_spec tag t), (string_dec tag t); try congruence; auto. exists 0. apply same_refl.
  - destruct H as [HA HB]. cbn [step]. destruct (c_cache g); split; auto. intros t. exists 0. exact Logic.I.
  - destruct H as [HA HB]. destruct (send_spec g u v l s) as (A & B & _ & r & D). split.
    + intros t. rewrite B. unfold said1. rewrite D. unfold told1.
      destruct u, l as [ l | ], r; auto; try (destruct (last_of t l); auto; exists 0; apply same_refl); exists 0; apply same_refl.
    + intros t. rewrite A. unfold words1, word1. auto.
  - destruct W.
  - destruct H as [HA HB]. cbn [step]. unfold get_version. destruct (enabled g); [ | split; auto ]. destruct (entries s) eqn:E; rewrite <- E in HA.
    + split; [ exact HA | exact HB ].
    + destruct (version s); split; try exact HA; exact HB.
  - destruct H as [HA HB]. cbn [step]. destruct (version s); split; auto.
Qed.
Lemma run_weak : forall h s f w, Forall whole h -> wlinked s f w ->
  wlinked (run h s) (fun t => fold_left (told1 t) (events h s) (f t)) (fun t => fold_left (word1 t) (events h s) (w t)).
Proof.
  induction h as [ | o h IH ]; intros s f w W H; auto. inversion W; subst. apply (IH _ _ _ H3 (step_weak o s f w H2 H)).
Qed.
Lemma history_weak : forall h, Forall whole h -> wlinked (run h initial) (fun t => told t (events h initial)) (fun t => word t (events h initial)).
Proof. intros h W. apply (run_weak h initial (fun _ => None) (fun _ => None) W). split; intros t; exists 0; exact Logic.I. Qed.

(** ** Versions *)
Lemma validate_version : forall e tag s, version (fst (validate e tag s)) = version s.
Proof.
  intros e tag s. unfold validate. destruct (f_cache e); auto. destruct (look (t_cache e) tag (cache s)) as [l [ i | ]]; auto.
  destruct (is_accepted i); auto. destruct (i_expiry i); auto. destruct (_ <? _); auto.
Qed.
Lemma locally_version : forall g c e tag s, version (fst (locally g c e tag s)) = version s.
Proof.
  intros g c e tag s. unfold locally. destruct (_ || _); auto.
  assert (X : version (fst (in_list g e tag s)) = version s). { unfold in_list. destruct (c_list g && negb (f_list e)); auto. destruct (look (t_list e) tag (entries s)); auto. }
  destruct (in_list g e tag s) as [s1 [ i | ]]; auto. cbn [fst] in X.
  assert (Y : version (fst (in_cache g e tag s1)) = version s1).
  { unfold in_cache. destruct (c_cache g); auto. assert (V := validate_version e tag s1). destruct (validate e tag s1) as [s2 [ [ | ] | ]]; auto. destruct (f_again e); auto. destruct (look (t_again e) tag (cache s2)); auto. }
  destruct (in_cache g e tag s1) as [s2 [ [ i | ] | ]]; cbn [fst] in *; congruence.
Qed.
Lemma authorize_version : forall g c e tag b a p s, version (fst (authorize g c e tag b a p s)) = version s.
Proof.
  intros g c e tag b a p s. unfold authorize. assert (X := locally_version g c e tag s). destruct (locally g c e tag s) as [s1 [ r | ]]; auto.
  destruct b; auto. destruct a; auto.
Qed.
Lemma step_version : forall o s x, whole o -> version s = Some x -> version (fst (step o s)) = Some (vers1 x (o, snd (step o s))).
Proof.
  intros o s x W V.
  assert (AV := fun g c e tag b a p => authorize_version g c e tag b a p s).
  destruct o; try exact V.
  - cbn [step]. specialize (AV g c e tag only_locally a price). destruct (authorize g c e tag only_locally a price s). cbn in *. congruence.
  - cbn [step]. assert (P : version (fst (pnc g p c e emaid hashes cert reply s)) = version s).
    { unfold pnc. destruct (p_enabled p); auto. destruct c; auto; cbn [online andb].
      - destruct cert as [[y made] | ]; auto. destruct (p_offline p); auto. destruct y; auto. destruct (c_off g); auto.
        destruct (20 <? Z.of_nat (String.length emaid)); auto. assert (X := AV g Offline e emaid true NoConf None).
        destruct (authorize g Offline e emaid true NoConf None s) as [s1 [i t b | ]]; auto.
      - destruct hashes; auto. destruct cert as [[y made] | ]; auto. destruct y, made, (p_central p); auto. }
    destruct (pnc g p c e emaid hashes cert reply s). cbn in *. congruence.
  - cbn [step]. destruct (c_cache g); exact V.
  - destruct (send_spec g u v l s) as (_ & _ & C & _). auto.
  - destruct W.
  - cbn [step]. unfold get_version. destruct (enabled g), (entries s); try exact V. rewrite V. exact V.
  - cbn [step]. rewrite V. exact V.
Qed.
Lemma run_version : forall h s x, Forall whole h -> version s = Some x -> version (run h s) = Some (fold_left vers1 (events h s) x).
Proof.
  induction h as [ | o h IH ]; intros s x W V; auto. inversion W; subst. cbn [run events fold_left]. apply IH; auto. now apply step_version.
Qed.
