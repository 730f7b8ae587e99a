(** Proofs about A16Model. *)
From Coq Require Import String ZArith NArith List Bool Lia Sorting.Sorted.
From Verif Require Import A16Model A16Spec.
Import ListNotations.
Local Open Scope Z_scope.

(** ** Tables *)
Lemma get_del : forall tag t l, get tag (del t l) = if String.eqb t tag then None else get tag l.
Proof.
  intros tag t l. unfold del. induction l as [ | [k i] r IH ]; cbn [filter get fst].
  - now destruct (String.eqb t tag).
  - destruct (String.eqb_spec k t) as [ -> | N ]; cbn [negb].
    + rewrite IH. destruct (String.eqb_spec t tag); auto.
    + cbn [get]. destruct (String.eqb_spec k tag) as [ -> | M ]; [ | exact IH ]. destruct (String.eqb_spec t tag); auto. congruence.
Qed.
Lemma get_put : forall tag t i l, get tag (put t i l) = if String.eqb t tag then Some i else get tag l.
Proof. intros. unfold put. cbn [get]. destruct (String.eqb t tag) eqn:E; auto. rewrite get_del. now rewrite E. Qed.
Lemma get_none : forall l, (forall tag, get tag l = None) -> l = [].
Proof. intros [ | [k i] r ] H; auto. specialize (H k). cbn in H. rewrite String.eqb_refl in H. discriminate. Qed.

(** What is stored and what was said: the same, but that the stored one may have expired by [now]. *)
Definition same (now : Z) (stored said : option info) : Prop :=
  match stored, said with
  | None, None => True
  | Some i, Some j => i_expiry i = i_expiry j /\ i_parent i = i_parent j
      /\ (i_status i = i_status j \/ i_status i = Expired /\ past now j)
  | _, _ => False
  end.
Lemma same_refl : forall now x, same now x x.
Proof. intros now [ i | ]; cbn; auto. Qed.
Lemma same_later : forall a b x y, a <= b -> same a x y -> same b x y.
Proof. intros a b [ i | ] [ j | ] L; cbn; auto. intros (E & P & [ S | [S (z & Q & R)] ]); repeat split; auto. right. split; auto. exists z. split; auto. lia. Qed.
(** Looking up. *)
Lemma look_spec : forall T now tag l said, T <= now -> same T (get tag l) said ->
  same now (get tag (fst (look now tag l))) said /\ snd (look now tag l) = option_map (aged now) said
  /\ (forall t, t <> tag -> get t (fst (look now tag l)) = get t l).
Proof.
  intros T now tag l said L S. unfold look. destruct (get tag l) as [ i | ] eqn:G, said as [ j | ]; cbn in S; try tauto.
  - destruct S as (E & P & S). unfold expire.
    assert (A : forall b, i_status i <> Expired -> i_expiry i = b -> i_status i = i_status j).
    { intros b N _. destruct S as [ S | [S _] ]; auto. congruence. }
    assert (J : forall k, i_status i = i_status j -> k = i -> aged now j = if pastb now i then Info Expired (i_expiry i) (i_parent i) else i).
    { intros k SS _. unfold aged, pastb. rewrite <- E, <- P. destruct i as [a b c0], j as [a' b' c']. cbn in *. subst. reflexivity. }
    assert (K : i_status i = Expired -> aged now j = i).
    { intros X. unfold aged. destruct S as [ S | [S (z & Q & R)] ].
      - destruct i as [a b c0], j as [a' b' c']. cbn in *. subst. destruct (pastb now _); auto.
      - unfold pastb. rewrite Q. replace (z <=? now) with true by (symmetry; apply Z.leb_le; lia). destruct i as [a b c0], j as [a' b' c']. cbn in *. subst. auto. }
    assert (D : i_status i = Expired \/ i_status i <> Expired) by (destruct (i_status i); (left; reflexivity) || (right; discriminate)).
    destruct D as [ X | X ].
    + rewrite X. cbn [fst snd]. rewrite G. split; [ | split; auto ].
      * cbn. repeat split; auto. destruct S as [ S | [S (z & Q & R)] ]; [ left | right; split; auto; exists z; split; auto; lia ]; auto.
      * cbn [option_map]. now rewrite K.
    + specialize (A _ X eq_refl). assert (J' := J i A eq_refl). unfold pastb in J'.
      assert (M : (match i_status i, i_expiry i with Expired, _ => None | _, Some e => if e <=? now then Some (Info Expired (Some e) (i_parent i)) else None | _, None => None end)
                  = match i_expiry i with Some e => if e <=? now then Some (Info Expired (Some e) (i_parent i)) else None | None => None end).
      { destruct (i_status i); auto. congruence. }
      rewrite M. destruct (i_expiry i) as [ x | ] eqn:X2.
      * destruct (x <=? now) eqn:X3.
        -- cbn [fst snd]. rewrite get_put, String.eqb_refl. split; [ | split ].
           ++ cbn. repeat split; auto. right. split; auto. exists x. split; auto. lia.
           ++ cbn [option_map]. now rewrite J'.
           ++ intros t N. rewrite get_put. destruct (String.eqb_spec tag t); auto. congruence.
        -- cbn [fst snd]. rewrite G. split; [ | split; auto ].
           ++ cbn. rewrite X2. auto.
           ++ cbn [option_map]. now rewrite J'.
      * cbn [fst snd]. rewrite G. split; [ | split; auto ].
        -- cbn. rewrite X2. auto.
        -- cbn [option_map]. now rewrite J'.
  - cbn [fst snd]. rewrite G. cbn. auto.
Qed.

(** ** One authorization *)
Definition linked (now : Z) (s : st) (said_list said_cache : string -> option info) : Prop :=
  (forall t, same now (get t (entries s)) (said_list t)) /\ (forall t, same now (get t (cache s)) (said_cache t)).
Lemma linked_later : forall a b s f g, a <= b -> linked a s f g -> linked b s f g.
Proof. intros a b s f g L [A B]. split; intros t; eapply same_later; eauto. Qed.

Lemma look_linked_list : forall T now tag s f g, T <= now -> linked T s f g ->
  linked now (set_entries s (fst (look now tag (entries s)))) f g /\ snd (look now tag (entries s)) = option_map (aged now) (f tag).
Proof.
  intros T now tag s f g L [A B]. destruct (look_spec T now tag (entries s) (f tag) L (A tag)) as (X & Y & Z).
  split; auto. split; cbn [entries cache set_entries]; intros t; [ | eapply same_later; eauto ].
  destruct (string_dec t tag) as [ -> | N ]; auto. rewrite Z by auto. eapply same_later; eauto.
Qed.
Lemma look_linked_cache : forall T now tag s f g, T <= now -> linked T s f g ->
  linked now (set_cache s (fst (look now tag (cache s)))) f g /\ snd (look now tag (cache s)) = option_map (aged now) (g tag).
Proof.
  intros T now tag s f g L [A B]. destruct (look_spec T now tag (cache s) (g tag) L (B tag)) as (X & Y & Z).
  split; auto. split; cbn [entries cache set_cache]; intros t; [ eapply same_later; eauto | ].
  destruct (string_dec t tag) as [ -> | N ]; auto. rewrite Z by auto. eapply same_later; eauto.
Qed.
Definition ordered (T : Z) (e : env) : Prop := T <= t_list e /\ t_list e <= t_cache e /\ t_cache e <= t_valid e /\ t_valid e <= t_again e.
Lemma is_accepted_iff : forall i, is_accepted i = true <-> i_status i = Accepted.
Proof. intros i. unfold is_accepted. destruct (i_status i); split; intros H; auto; discriminate. Qed.
Lemma aged_status : forall now i, i_status (aged now i) = Accepted <-> i_status i = Accepted /\ pastb now i = false.
Proof. intros now i. unfold aged. destruct (pastb now i); cbn; split; try easy; tauto. Qed.
Lemma aged_same : forall now i, pastb now i = false -> aged now i = i.
Proof. intros now i H. unfold aged. now rewrite H. Qed.
Lemma local_result_spec : forall g c i, local_result g c i = with_tariff g c i.
Proof. intros g c i. unfold local_result, with_tariff, is_accepted. destruct (i_status i), (c_price g), c; reflexivity. Qed.
Lemma in_list_spec : forall g T e tag s f w, T <= t_list e -> linked T s f w ->
  linked (t_list e) (fst (in_list g e tag s)) f w
  /\ snd (in_list g e tag s) = option_map (aged (t_list e)) (if c_list g && negb (f_list e) then f tag else None).
Proof.
  intros g T e tag s f w L H. unfold in_list. destruct (c_list g && negb (f_list e)).
  - assert (X := look_linked_list T (t_list e) tag s f w L H). destruct (look (t_list e) tag (entries s)). exact X.
  - cbn. split; auto. eapply linked_later; eauto.
Qed.
Lemma validate_spec : forall T e tag s f w, T <= t_cache e -> t_cache e <= t_valid e -> linked T s f w ->
  linked (t_valid e) (fst (validate e tag s)) f w
  /\ snd (validate e tag s) = if f_cache e then None else Some match w tag with
        | Some i => match i_status i with Accepted => negb (pastb (t_cache e) i) && negb (match i_expiry i with Some x => x <? t_valid e | None => false end) | _ => false end
        | None => false end.
Proof.
  intros T e tag s f w L1 L2 H. unfold validate. destruct (f_cache e). { cbn. split; auto. apply (linked_later T); auto. lia. }
  destruct (look_linked_cache T (t_cache e) tag s f w L1 H) as [X Y]. destruct (look (t_cache e) tag (cache s)) as [l r]. cbn [fst snd] in X, Y. subst r.
  assert (X' : linked (t_valid e) (set_cache s l) f w) by (eapply linked_later; eauto).
  destruct (w tag) as [ i | ] eqn:W; cbn [option_map]; [ | cbn; auto ].
  destruct (is_accepted (aged (t_cache e) i)) eqn:A.
  - rewrite is_accepted_iff, aged_status in A. destruct A as [A1 A2]. rewrite (aged_same _ _ A2), A1, A2. cbn [negb andb].
    destruct (i_expiry i) as [ x | ] eqn:E; [ | cbn; auto ].
    destruct (x <? t_valid e) eqn:V; cbn [fst snd negb]; auto. split; auto.
    destruct X' as [XA XB]. split; auto. cbn [cache set_cache]. intros t. rewrite get_put. destruct (String.eqb_spec tag t) as [ <- | N ]; [ | apply XB ].
    rewrite W. cbn. repeat split; auto. right. split; auto. exists x. split; auto. lia.
  - cbn [fst snd]. split; auto. destruct (i_status i) eqn:S; auto. f_equal. destruct (pastb (t_cache e) i) eqn:P; auto.
    rewrite (aged_same _ _ P) in A. unfold is_accepted in A. rewrite S in A. discriminate.
Qed.
(** What [in_cache] finds. *)
Definition cached (g : cfg) (e : env) (w : option info) : option (option info) :=
  if c_cache g then
    if f_cache e then None
    else Some match w with
              | Some i => match i_status i with
                          | Accepted => if pastb (t_cache e) i || (match i_expiry i with Some x => x <? t_valid e | None => false end) || f_again e
                                        then None else Some (aged (t_again e) i)
                          | _ => None end
              | None => None end
  else Some None.
Lemma in_cache_spec : forall g T e tag s f w, T <= t_cache e -> t_cache e <= t_valid e -> t_valid e <= t_again e -> linked T s f w ->
  linked (t_again e) (fst (in_cache g e tag s)) f w /\ snd (in_cache g e tag s) = cached g e (w tag).
Proof.
  intros g T e tag s f w L1 L2 L3 H. unfold in_cache, cached. destruct (c_cache g); [ | cbn; split; auto; apply (linked_later T); auto; lia ].
  destruct (validate_spec T e tag s f w L1 L2 H) as [X Y]. destruct (validate e tag s) as [s1 r]. cbn [fst snd] in X, Y. subst r.
  assert (X' : linked (t_again e) s1 f w) by (eapply linked_later; eauto).
  destruct (f_cache e); [ cbn; auto | ].
  destruct (w tag) as [ i | ] eqn:W; [ | cbn; auto ]. destruct (i_status i); try (cbn; auto; fail).
  destruct (pastb (t_cache e) i); [ cbn; auto | ]. cbn [negb andb orb].
  destruct (match i_expiry i with Some x => x <? t_valid e | None => false end); [ cbn; auto | ]. cbn [negb orb].
  destruct (f_again e); [ cbn; auto | ].
  destruct (look_linked_cache (t_valid e) (t_again e) tag s1 f w L3 X) as [P Q]. destruct (look (t_again e) tag (cache s1)) as [l r]. cbn [fst snd] in *.
  split; auto. rewrite Q, W. reflexivity.
Qed.
(** The answers after an authorization. *)
Definition after_word (tag : string) (a : answer) (r : result) (w : string -> option info) : string -> option info :=
  fun t => match a, r with Conf i, Res _ _ true => if string_dec tag t then Some i else w t | _, _ => w t end.
Lemma locally_spec : forall g c T e tag s f w, ordered T e -> linked T s f w ->
  linked (t_again e) (fst (locally g c e tag s)) f w
  /\ forall o a p, match snd (locally g c e tag s) with Some r => r = decide g c e (f tag) (w tag) o a p /\ (forall i t, r <> Res i t true)
                                         | None => decide g c e (f tag) (w tag) o a p = remote g o a p end.
Proof.
  intros g c T e tag s f w (L1 & L2 & L3 & L4) H. unfold locally, decide.
  replace ((c_pre g && online c) || (c_off g && negb (online c))) with (local_ok g c) by (unfold local_ok; destruct c; cbn [online negb]; rewrite ?andb_false_r, ?andb_true_r, ?orb_false_r; auto).
  destruct (local_ok g c); [ | cbn; split; auto; apply (linked_later T); auto; lia ].
  destruct (in_list_spec g T e tag s f w L1 H) as [X Y]. destruct (in_list g e tag s) as [s1 r]. cbn [fst snd] in X, Y. subst r.
  assert (NT : forall i j t, with_tariff g c i <> Res j t true) by (intros i j t; unfold with_tariff; destruct (i_status i), (c_price g), c; discriminate).
  destruct (if c_list g && negb (f_list e) then f tag else None) as [ i | ]; cbn [option_map].
  - cbn [fst snd]. rewrite local_result_spec. split; [ apply (linked_later (t_list e)); auto; lia | ]. intros. split; auto.
  - destruct (in_cache_spec g (t_list e) e tag s1 f w L2 L3 L4 X) as [P Q]. destruct (in_cache g e tag s1) as [s2 r]. cbn [fst snd] in P, Q. subst r.
    unfold cached. destruct (c_cache g); [ | cbn; auto ]. destruct (f_cache e). { cbn. split; auto. intros. split; auto. discriminate. }
    destruct (w tag) as [ i | ]; [ | cbn; auto ]. destruct (i_status i); try (cbn; auto; fail).
    destruct (pastb (t_cache e) i || (match i_expiry i with Some x => x <? t_valid e | None => false end) || f_again e); [ cbn; auto | ].
    cbn [fst snd]. rewrite local_result_spec. split; auto.
Qed.
Lemma authorize_spec : forall g c T e tag o a p s f w, ordered T e -> linked T s f w ->
  let '(s', r) := authorize g c e tag o a p s in
  r = decide g c e (f tag) (w tag) o a p /\ linked (t_again e) s' f (after_word tag a r w).
Proof.
  intros g c T e tag o a p s f w L H. unfold authorize. destruct (locally_spec g c T e tag s f w L H) as [X Y].
  specialize (Y o a p). destruct (locally g c e tag s) as [s1 [ r | ]]; cbn [fst snd] in X, Y.
  - destruct Y as [Y N]. split; auto. destruct X as [XA XB]. split; auto. intros t. unfold after_word. destruct a; auto. destruct r as [i0 t0 [ | ] | ]; auto. now specialize (N i0 t0).
  - rewrite Y. unfold remote. destruct o.
    + split; auto. destruct X as [XA XB]. split; auto. intros t. unfold after_word. destruct a; auto.
    + assert (Z : linked (t_again e) s1 f (fun t => w t)) by (destruct X; split; auto).
      destruct a as [ i | | | ].
      * split.
        -- unfold is_accepted. destruct (i_status i), (c_price g), p; reflexivity.
        -- destruct X as [XA XB]. split; auto. cbn [cache set_cache]. intros t. unfold after_word. rewrite get_put.
           destruct (String.eqb_spec tag t), (string_dec tag t); try congruence; auto. apply same_refl.
      * split; auto.
      * split; auto. destruct (c_unknown g); reflexivity.
      * split; auto.
Qed.
Lemma pnc_linked : forall g p c T e m h x r s f w, ordered T e -> linked T s f w -> linked (t_again e) (fst (pnc g p c e m h x r s)) f w.
Proof.
  intros g p c T e m h x r s f w L H.
  assert (Z : linked (t_again e) s f w). { destruct L as (A & B & C & D). apply (linked_later T); auto. lia. }
  unfold pnc. destruct (p_enabled p); auto. destruct c; auto; cbn [online].
  - cbn [andb]. destruct x as [[v made] | ]; auto. destruct (p_offline p); auto. destruct v; auto. destruct (c_off g); auto.
    destruct (20 <? Z.of_nat (String.length m)); auto.
    assert (Y := authorize_spec g Offline T e m true NoConf None s f w L H). destruct (authorize g Offline e m true NoConf None s) as [s1 [i t b | ]]; destruct Y as [_ [A B]]; split; auto.
  - cbn [andb]. destruct h; auto. destruct x as [[v made] | ]; auto. destruct v, made, (p_central p); auto.
Qed.
