(** Lemmas about authorization. *)
From Coq Require Import ZArith String Ascii List Bool Lia.
From Verif Require Import StrModel StrProofs AuthModel AuthSpec.
Import ListNotations.
Local Open Scope string_scope.
Local Open Scope Z_scope.

(** * Tables *)

Lemma accepted_true s : is_accepted s = true <-> s = Accepted.
Proof. destruct s; cbn; split; congruence. Qed.

Lemma find_unique (d : list cache_row) k r : NoDup (map c_key d) -> In r d -> c_key r = k -> cache_get k d = Some r.
Proof.
  unfold cache_get. induction d as [|x d IH]; cbn; [tauto|]. intros N I K. inversion N; subst.
  destruct (String.eqb_spec (c_key x) (c_key r)) as [E|E].
  - destruct I as [->|I]; auto. exfalso. apply H1. rewrite E. apply in_map. exact I.
  - destruct I as [->|I]; [congruence|]. auto.
Qed.

Lemma cache_get_some k d r : cache_get k d = Some r -> In r d /\ c_key r = k.
Proof. unfold cache_get. intros H. apply find_some in H. rewrite String.eqb_eq in H. exact H. Qed.

Lemma cache_get_none k d : cache_get k d = None <-> forall r, In r d -> c_key r <> k.
Proof.
  unfold cache_get. split.
  - intros H r I E. pose proof (find_none _ _ H r I) as F. cbn in F. rewrite E, String.eqb_refl in F. discriminate.
  - intros H. destruct (find _ d) eqn:F; auto. apply find_some in F. destruct F as [I E]. apply String.eqb_eq in E. exfalso. eapply H; eauto.
Qed.

Lemma list_unique (l : list (string * info)) k i : NoDup (map fst l) -> In (k, i) l -> list_get k l = Some i.
Proof.
  unfold list_get. induction l as [|[k' i'] l IH]; cbn; [tauto|]. intros N I. inversion N; subst.
  destruct (String.eqb_spec k' k) as [->|E].
  - destruct I as [I|I]; [injection I as ->; reflexivity|]. exfalso. apply H1. change k with (fst (k, i)). apply in_map. exact I.
  - destruct I as [I|I]; [congruence|]. auto.
Qed.

Lemma list_get_in l k i : list_get k l = Some i -> In (k, i) l.
Proof.
  unfold list_get. destruct (find _ l) as [[k' i']|] eqn:F; [|discriminate]. intros H. injection H as ->.
  apply find_some in F. destruct F as [I E]. cbn in E. apply String.eqb_eq in E. subst. exact I.
Qed.

Lemma list_get_none l k : list_get k l = None -> forall i, ~ In (k, i) l.
Proof.
  unfold list_get. destruct (find _ l) as [[k' i']|] eqn:F; [discriminate|]. intros _ i I.
  pose proof (find_none _ _ F _ I) as H. cbn in H. rewrite String.eqb_refl in H. discriminate.
Qed.

Lemma nodup_filter {A B} (f : A -> B) (p : A -> bool) l : NoDup (map f l) -> NoDup (map f (filter p l)).
Proof.
  induction l as [|x l IH]; cbn; auto. intros N. inversion N; subst. destruct (p x); cbn; auto. constructor; auto.
  intros I. apply H1. apply in_map_iff in I. destruct I as (y & E & I). apply filter_In in I. rewrite <- E. apply in_map. tauto.
Qed.

Lemma delete_in k (c : list cache_row) r : In r (cache_delete k c) <-> In r c /\ c_key r <> k.
Proof. unfold cache_delete. rewrite filter_In, negb_true_iff, String.eqb_neq. reflexivity. Qed.

Lemma nodup_snoc {A} (l : list A) x : NoDup l -> ~ In x l -> NoDup (l ++ [x]).
Proof.
  intros N I. induction N; cbn; [constructor; auto; constructor|]. constructor.
  - rewrite in_app_iff. cbn. intros [?|[?|[]]]; subst; auto. apply I. left. reflexivity.
  - apply IHN. intros ?. apply I. right. assumption.
Qed.

Lemma insert_keys now k i c : NoDup (map c_key c) -> NoDup (map c_key (cache_insert now k i c)).
Proof.
  intros N. unfold cache_insert. rewrite map_app. cbn. apply nodup_snoc.
  - apply nodup_filter. exact N.
  - intros I. apply in_map_iff in I. destruct I as (r & E & I). apply delete_in in I. tauto.
Qed.

Lemma insert_in now k i c r : In r (cache_insert now k i c) <->
  (In r c /\ c_key r <> k) \/ r = {| c_key := k; c_info := i; c_used := now; c_expiry := i_expiry i |}.
Proof. unfold cache_insert. rewrite in_app_iff, delete_in. cbn. intuition. Qed.

Lemma use_keys now k c : map c_key (cache_use now k c) = map c_key c.
Proof. unfold cache_use. rewrite map_map. apply map_ext. intros r. destruct (String.eqb (c_key r) k); reflexivity. Qed.

Lemma use_in now k c r : In r (cache_use now k c) <->
  (In r c /\ c_key r <> k) \/
  (exists r0, In r0 c /\ c_key r0 = k /\ r = {| c_key := c_key r0; c_info := c_info r0; c_used := now; c_expiry := c_expiry r0 |}).
Proof.
  unfold cache_use. rewrite in_map_iff. split.
  - intros (r0 & E & I). destruct (String.eqb_spec (c_key r0) k); subst; [right; eauto 6|left; auto].
  - intros [[I N]|(r0 & I & K & ->)].
    + exists r. split; auto. destruct (String.eqb_spec (c_key r) k); [contradiction|reflexivity].
    + exists r0. split; auto. rewrite K, String.eqb_refl. rewrite <- K. reflexivity.
Qed.

(** * Conditions *)

Lemma local_checks_iff cfg w : can_locally_check cfg w = true <-> local_checks cfg w.
Proof. unfold can_locally_check, local_checks. destruct (online w), (local_pre_authorize cfg), (local_authorize_offline cfg); cbn; intuition congruence. Qed.

Lemma fresh_iff cfg w r : cache_row_expired cfg w r = false <-> fresh (cache_lifetime cfg) (now w) r.
Proof.
  unfold cache_row_expired, fresh. rewrite orb_false_iff.
  destruct (cache_lifetime cfg) as [l|], (i_expiry (c_info r)) as [e|]; rewrite ?Z.ltb_ge; split; intros [A B]; split; try congruence;
    try (intros ? H; injection H as <-; lia); try reflexivity; try (apply A; reflexivity); try (apply B; reflexivity).
Qed.

Lemma exempt_iff cfg t :
  has_type "Central" t || has_type "NoAuthorization" t || negb (auth_enabled cfg) = true <-> exempt cfg t.
Proof. unfold has_type, exempt. rewrite !orb_true_iff, negb_true_iff. tauto. Qed.

Lemma authorize_says w q r s : authorize_req w q = (r, s) -> csms_says w q r s.
Proof.
  unfold authorize_req, csms_says. destruct (online_at_send w); cbn [negb].
  - destruct (answer w q); intros H; injection H as <- <-; auto.
  - intros H. injection H as <- <-. auto.
Qed.

(** The contract part lets list and cache be tried exactly if the contract is cleared. *)
Lemma emaid_none cfg w t c o : validate_emaid cfg w t c o = None <-> contract_cleared cfg w c.
Proof.
  unfold validate_emaid, contract_cleared.
  destruct (online w), o, c, (verify w), (mo_ocsp w), (central_contract_validation cfg), (contract_validation_offline cfg), (local_authorize_offline cfg);
    split; intros H; try discriminate; try reflexivity; intuition congruence.
Qed.

Lemma checked_none cfg w t c o : ~ exempt cfg t ->
  (checked cfg w t c <-> (if has_type "eMAID" t then validate_emaid cfg w t c o else None) = None).
Proof.
  intros E. unfold checked, contract, has_type. destruct (iequals (t_type t) "eMAID").
  - rewrite emaid_none. intuition.
  - split; [reflexivity|]. intros _. split; auto. discriminate.
Qed.

Lemma list_hit_get cfg w t c o d i : tables_ok d -> list_hit cfg w t d i ->
  validate_list cfg w t c o d =
    Some (if is_accepted (i_status i) then ({| r_info := i; r_cert := None |}, [])
              else if disable_remote cfg then (respond StUnknown, [])
              else if online w then authorize_req w {| q_token := t; q_cert := c; q_ocsp := o |}
              else (respond StUnknown, [])).
Proof.
  intros (_ & N & _) (E & L & G & I). unfold validate_list. rewrite E, G. apply local_checks_iff in L. rewrite L.
  cbn [andb]. unfold listed in I. fold (token_key t) in I. rewrite (list_unique _ _ _ N I). reflexivity.
Qed.

Lemma no_list_hit_iff cfg w t c o d : tables_ok d -> (no_list_hit cfg w t d <-> validate_list cfg w t c o d = None).
Proof.
  intros T. split.
  - intros H. unfold validate_list. destruct (list_enabled cfg) eqn:E; [|reflexivity].
    destruct (can_locally_check cfg w) eqn:L; [|reflexivity]. cbn [andb].
    destruct (list_get_ok w) eqn:G; [|reflexivity].
    destruct (list_get (token_key t) (d_list d)) as [i|] eqn:I; [|reflexivity]. exfalso.
    apply (H i). repeat split; auto. apply local_checks_iff. exact L. apply list_get_in. exact I.
  - intros H i Hi. rewrite (list_hit_get _ _ _ c o _ _ T Hi) in H. discriminate.
Qed.

Lemma cache_hit_get cfg w t d r : tables_ok d -> cache_hit cfg w t d r ->
  validate_cache cfg w t d =
  if cache_row_expired cfg w r
  then (None, if cache_delete_ok w then cache_delete (token_key t) (d_cache d) else d_cache d)
  else if is_accepted (i_status (c_info r)) then
    (if cache_use_ok w
     then (Some {| r_info := c_info r; r_cert := None |}, cache_use (now w) (token_key t) (d_cache d))
     else (None, d_cache d))
  else if disable_post_authorize cfg then (Some {| r_info := c_info r; r_cert := None |}, d_cache d)
  else (None, d_cache d).
Proof.
  intros (N & _ & _) (E & L & G & I & K). unfold validate_cache. rewrite E, G. apply local_checks_iff in L. rewrite L.
  cbn [andb]. fold (token_key t) in K. rewrite (find_unique _ _ _ N I K). reflexivity.
Qed.

Lemma no_cache_hit cfg w t d : (forall r, ~ cache_hit cfg w t d r) -> validate_cache cfg w t d = (None, d_cache d).
Proof.
  intros H. unfold validate_cache. destruct (cache_enabled cfg) eqn:E; [|reflexivity].
  destruct (can_locally_check cfg w) eqn:L; [|reflexivity]. cbn [andb].
  destruct (cache_get_ok w) eqn:G; [|reflexivity].
  destruct (cache_get (token_key t) (d_cache d)) as [r|] eqn:I; [|reflexivity]. exfalso.
  apply cache_get_some in I. apply (H r). unfold cache_hit, cached. fold (token_key t). repeat split; auto; try tauto. apply local_checks_iff. exact L.
Qed.

(** Whether there is a usable row is decidable. *)
Lemma cache_hit_dec cfg w t d : (exists r, cache_hit cfg w t d r) \/ (forall r, ~ cache_hit cfg w t d r).
Proof.
  unfold cache_hit. destruct (cache_enabled cfg); [|right; intros r (H & _); discriminate].
  destruct (can_locally_check cfg w) eqn:L.
  - apply local_checks_iff in L. destruct (cache_get_ok w); [|right; intros r (_ & _ & H & _); discriminate].
    destruct (cache_get (token_key t) (d_cache d)) as [r|] eqn:I.
    + left. exists r. apply cache_get_some in I. unfold cached. fold (token_key t). tauto.
    + right. intros r (_ & _ & _ & H1 & H2). pose proof (proj1 (cache_get_none _ _) I) as H. apply (H r H1 H2).
  - right. intros r (_ & H & _). apply local_checks_iff in H. congruence.
Qed.

Lemma list_hit_dec cfg w t d : (exists i, list_hit cfg w t d i) \/ no_list_hit cfg w t d.
Proof.
  unfold no_list_hit, list_hit. destruct (list_enabled cfg); [|right; intros r (H & _); discriminate].
  destruct (can_locally_check cfg w) eqn:L.
  - apply local_checks_iff in L. destruct (list_get_ok w); [|right; intros r (_ & _ & H & _); discriminate].
    destruct (list_get (token_key t) (d_list d)) as [r|] eqn:I.
    + left. exists r. apply list_get_in in I. unfold listed. fold (token_key t). tauto.
    + right. intros r (_ & _ & _ & H1). exact (list_get_none _ _ I r H1).
  - right. intros r (_ & H & _). apply local_checks_iff in H. congruence.
Qed.

(** * Keys of the rows *)

Lemma app_prefix a b x y : a ++ x = b ++ y -> String.prefix a b = true \/ String.prefix b a = true.
Proof.
  revert b. induction a as [|c a IH]; intros b H; [left; destruct b; reflexivity|].
  destruct b as [|c' b]; [right; reflexivity|]. cbn in H. injection H as -> H.
  cbn. destruct (ascii_dec c' c'); [|congruence]. apply IH. exact H.
Qed.

Lemma app_cancel_s a x y : a ++ x = a ++ y -> x = y.
Proof. induction a; cbn; auto. intros H. injection H. auto. Qed.

Lemma standard_prefix_free a b : In a standard_types -> In b standard_types -> String.prefix a b = true -> a = b.
Proof.
  assert (C : forallb (fun a => forallb (fun b => implb (String.prefix a b) (String.eqb a b)) standard_types) standard_types = true)
    by (vm_compute; reflexivity).
  intros A B P. rewrite forallb_forall in C. specialize (C a A). rewrite forallb_forall in C. specialize (C b B).
  rewrite P in C. cbn in C. apply String.eqb_eq. exact C.
Qed.

Lemma standard_key_inj a b : standard a -> standard b -> token_key a = token_key b -> a = b.
Proof.
  unfold standard, token_key. destruct a as [i1 t1], b as [i2 t2]. cbn. intros A B E.
  assert (t1 = t2).
  { destruct (app_prefix _ _ _ _ E) as [P|P]; [|symmetry]; eapply standard_prefix_free; eauto. }
  subst. f_equal. eapply app_cancel_s. exact E.
Qed.

Lemma token_eqb_spec a b : token_eqb a b = true <-> a = b.
Proof.
  unfold token_eqb. rewrite andb_true_iff, !String.eqb_eq. destruct a, b; cbn. split; [intros [-> ->]; reflexivity|]. intros H. injection H. auto.
Qed.

(** * The local list *)

Lemma list_delete_in k l k' i : In (k', i) (list_delete k l) <-> In (k', i) l /\ k' <> k.
Proof. unfold list_delete. rewrite filter_In, negb_true_iff, String.eqb_neq. reflexivity. Qed.

Lemma list_insert_in k i l k' i' : In (k', i') (list_insert k i l) <-> (In (k', i') l /\ k' <> k) \/ (k' = k /\ i' = i).
Proof.
  unfold list_insert. rewrite in_app_iff, list_delete_in. cbn. split; intros [H|H]; auto.
  - right. destruct H as [H|[]]. injection H. auto.
  - right. left. destruct H. congruence.
Qed.

Lemma list_insert_keys k i l : NoDup (map fst l) -> NoDup (map fst (list_insert k i l)).
Proof.
  intros N. unfold list_insert. rewrite map_app. cbn. apply nodup_snoc.
  - apply nodup_filter. exact N.
  - intros I. apply in_map_iff in I. destruct I as ([k' i'] & E & I). cbn in E. apply list_delete_in in I. tauto.
Qed.

Lemma apply_entries_keys ok : forall l n t, NoDup (map fst t) -> NoDup (map fst (fst (apply_entries ok n l t))).
Proof.
  induction l as [|x l IH]; intros n t N; cbn; auto.
  set (t' := if ok n then _ else t).
  assert (N' : NoDup (map fst t')).
  { unfold t'. destruct (ok n); auto. destruct (a_info x); [apply list_insert_keys; auto|apply nodup_filter; auto]. }
  specialize (IH (S n) t' N'). destruct (apply_entries ok (S n) l t'). exact IH.
Qed.

Lemma updated_cons m x l t : (forall y, In y l -> a_token y <> a_token x) ->
  updated m (x :: l) t = updated (fun t => if token_eqb (a_token x) t then a_info x else m t) l t.
Proof.
  intros D. unfold updated. cbn. destruct (token_eqb (a_token x) t) eqn:E; [|reflexivity].
  apply token_eqb_spec in E. destruct (find (fun y => token_eqb (a_token y) t) l) as [y|] eqn:F; [|reflexivity].
  apply find_some in F. destruct F as [I F]. apply token_eqb_spec in F. exfalso. apply (D y I). congruence.
Qed.

Lemma entries_ok ok : (forall n, ok n = true) -> forall l n tab m,
  Forall (fun x => standard (a_token x)) l -> NoDup (map a_token l) ->
  (forall t, standard t -> forall i, In (token_key t, i) tab <-> m t = Some i) ->
  let (tab', s) := apply_entries ok n l tab in
  s = true /\ (forall t, standard t -> forall i, In (token_key t, i) tab' <-> updated m l t = Some i).
Proof.
  intros OK. induction l as [|x l IH]; intros n tab m S N R; cbn [apply_entries].
  - split; auto.
  - rewrite OK. inversion S as [|? ? Sx Sl]; subst. inversion N as [|? ? Nx Nl]; subst.
    set (tab1 := match a_info x with Some i => _ | None => _ end).
    assert (R1 : forall t, standard t -> forall i, In (token_key t, i) tab1 <->
                 (if token_eqb (a_token x) t then a_info x else m t) = Some i).
    { intros t St i. unfold tab1. destruct (token_eqb (a_token x) t) eqn:E.
      - apply token_eqb_spec in E. subst t. destruct (a_info x) as [j|].
        + rewrite list_insert_in. split; [intros [[_ H]|[_ ->]]; congruence|]. intros H. injection H as ->. auto.
        + rewrite list_delete_in. split; [tauto|discriminate].
      - assert (K : token_key t <> token_key (a_token x)).
        { intros K. apply standard_key_inj in K; auto. subst. rewrite (proj2 (token_eqb_spec _ _) eq_refl) in E. discriminate. }
        destruct (a_info x) as [j|]; [rewrite list_insert_in|rewrite list_delete_in]; rewrite R by exact St; tauto. }
    specialize (IH (Datatypes.S n) tab1 _ Sl Nl R1). destruct (apply_entries ok (Datatypes.S n) l tab1) as [tab' s].
    destruct IH as [-> IH]. split; [reflexivity|]. intros t St i. rewrite IH by exact St. rewrite <- updated_cons; [reflexivity|].
    intros y I E. apply Nx. rewrite <- E. apply in_map. exact I.
Qed.

Lemma duplicate_iff l : has_duplicate l = true <-> ambiguous l.
Proof.
  induction l as [|x l IH]; cbn.
  - split; [discriminate|]. intros (l1 & ? & ? & ? & ? & E & _). destruct l1; discriminate.
  - rewrite orb_true_iff, existsb_exists, IH. split.
    + intros [(y & I & S)|(l1 & a & l2 & b & l3 & -> & H)].
      * apply in_split in I. destruct I as (l1 & l2 & ->). exists [], x, l1, y, l2. split; auto.
        unfold same_token in S. apply andb_true_iff in S. exact S.
      * exists (x :: l1), a, l2, b, l3. split; auto.
    + intros (l1 & a & l2 & b & l3 & E & H). destruct l1 as [|z l1]; cbn in E; injection E as -> ->.
      * left. exists b. split; [apply in_elt|]. unfold same_token. apply andb_true_iff. exact H.
      * right. exists l1, a, l2, b, l3. auto.
Qed.

Lemma iequals_refl_s s : iequals s s = true.
Proof. induction s; cbn; auto. rewrite Ascii.eqb_refl. exact IHs. Qed.

Lemma not_ambiguous_nodup l : ~ ambiguous l -> NoDup (map a_token l).
Proof.
  induction l as [|x l IH]; cbn; intros H; constructor.
  - intros I. apply in_map_iff in I. destruct I as (y & E & I). apply in_split in I. destruct I as (l1 & l2 & ->).
    apply H. exists [], x, l1, y, l2. split; auto. rewrite E. split; apply iequals_refl_s.
  - apply IH. intros (l1 & a & l2 & b & l3 & -> & K). apply H. exists (x :: l1), a, l2, b, l3. auto.
Qed.

Lemma no_info_iff l : existsb has_no_token_info l = true <-> exists x, In x l /\ a_info x = None.
Proof.
  rewrite existsb_exists. unfold has_no_token_info. split; intros (x & I & E); exists x; split; auto; destruct (a_info x); auto; discriminate.
Qed.

(** One update on a working database. *)
Lemma update_ok e w q d m v : db_works w -> Forall (fun x => standard (a_token x)) (entries q) -> represents d m v ->
  let (s, d') := send_local_list e w q d in
  exists st m' v', s = Some st /\ update_spec e q m v st m' v' /\ represents d' m' v' /\
    d_cache d' = d_cache d /\ (NoDup (map fst (d_list d)) -> NoDup (map fst (d_list d'))) /\
    d_entries d' = match st with LAccepted => Some (Z.of_nat (List.length (d_list d'))) | _ => d_entries d end /\
    (st <> LAccepted -> d' = d).
Proof.
  intros (Cl & En & Vg & Vs & Co) S [V R]. unfold send_local_list.
  destruct e; [|exists LFailed, m, v; split; [reflexivity|]; split; [apply up_disabled; reflexivity|]; split; [split; auto|]; auto].
  assert (FIN : forall st, update_spec true q m v st m v -> st <> LAccepted ->
    exists st0 m' v', Some st = Some st0 /\ update_spec true q m v st0 m' v' /\ represents d m' v' /\
      d_cache d = d_cache d /\ (NoDup (map fst (d_list d)) -> NoDup (map fst (d_list d))) /\
      d_entries d = match st0 with LAccepted => Some (Z.of_nat (List.length (d_list d))) | _ => d_entries d end /\ (st0 <> LAccepted -> d = d)).
  { intros st U NE. exists st, m, v. split; [reflexivity|]. split; [exact U|]. split; [split; auto|]. split; [reflexivity|].
    split; [auto|]. split; [|auto]. destruct st; congruence. }
  assert (EMPTY : forall t, standard t -> forall i, In (token_key t, i) [] <-> (fun _ : token => @None info) t = Some i)
    by (intros; split; [intros []|discriminate]).
  unfold apply_list. fold (entries q).
  destruct (Z.leb_spec (l_version q) 0) as [L|L]; [apply FIN; [apply up_version; auto|discriminate]|].
  destruct (l_type q) eqn:T.
  - destruct (entries q) as [|x l] eqn:E.
    + rewrite Cl, Vs, Co. do 3 eexists. split; [reflexivity|]. split.
      { apply up_full; auto; rewrite E; [|intros ? []]. intros (l1 & ? & ? & ? & ? & H & _). destruct l1; discriminate. }
      split; [|cbn; split; [reflexivity|split; [constructor|split; [reflexivity|congruence]]]].
      split; [reflexivity|]. intros t St i. rewrite E. cbn. exact (EMPTY t St i).
    + rewrite <- E in *.
      destruct (has_duplicate (entries q)) eqn:HD.
      { cbn [negb andb]. apply duplicate_iff in HD. apply FIN; [apply up_full_bad; auto|discriminate]. }
      destruct (existsb has_no_token_info (entries q)) eqn:HN.
      { cbn [negb andb]. apply no_info_iff in HN. apply FIN; [apply up_full_bad; auto|discriminate]. }
      cbn [negb andb]. rewrite Cl.
      assert (NA : ~ ambiguous (entries q)) by (rewrite <- duplicate_iff; congruence).
      pose proof (entries_ok _ En (entries q) 0 [] _ S (not_ambiguous_nodup _ NA) EMPTY) as K.
      pose proof (apply_entries_keys (entry_ok w) (entries q) 0 [] (NoDup_nil _)) as KK.
      destruct (apply_entries (entry_ok w) 0 (entries q) []) as [tab s]. destruct K as [-> K]. cbn [fst] in KK.
      rewrite Vs, Co. do 3 eexists. split; [reflexivity|]. split.
      { apply up_full; auto. intros y I N. apply (proj2 (not_true_iff_false _) HN). apply no_info_iff. eauto. }
      split; [|cbn; split; [reflexivity|split; [intros _; exact KK|split; [reflexivity|congruence]]]].
      split; [reflexivity|]. intros t St i. exact (K t St i).
  - rewrite Vg. cbn [negb]. rewrite V. destruct (Z.leb_spec (l_version q) v) as [L1|L1].
    { apply FIN; [apply up_mismatch; auto|discriminate]. }
    destruct (entries q) as [|x l] eqn:E.
    + rewrite Vs, Co. do 3 eexists. split; [reflexivity|]. split.
      { apply up_diff; auto. rewrite E. intros (l1 & ? & ? & ? & ? & H & _). destruct l1; discriminate. }
      split; [|cbn; split; [reflexivity|split; [auto|split; [reflexivity|congruence]]]].
      split; [reflexivity|]. intros t St i. rewrite E. exact (R t St i).
    + rewrite <- E in *.
      destruct (has_duplicate (entries q)) eqn:HD.
      { apply duplicate_iff in HD. apply FIN; [apply up_diff_bad; auto|discriminate]. }
      assert (NA : ~ ambiguous (entries q)) by (rewrite <- duplicate_iff; congruence).
      pose proof (entries_ok _ En (entries q) 0 (d_list d) m S (not_ambiguous_nodup _ NA) R) as K.
      pose proof (apply_entries_keys (entry_ok w) (entries q) 0 (d_list d)) as KK.
      destruct (apply_entries (entry_ok w) 0 (entries q) (d_list d)) as [tab s]. destruct K as [-> K]. cbn [fst] in KK.
      rewrite Vs, Co. do 3 eexists. split; [reflexivity|]. split; [apply up_diff; auto|].
      split; [|cbn; split; [reflexivity|split; [exact KK|split; [reflexivity|congruence]]]].
      split; [reflexivity|]. intros t St i. exact (K t St i).
Qed.

(** * Cleaning up the cache *)

Lemma oldest_some c : c <> [] -> exists o, oldest c = Some o /\ In o c /\ forall r, In r c -> c_used o <= c_used r.
Proof.
  induction c as [|r c IH]; [congruence|]. intros _. cbn. destruct c as [|r' c'].
  - exists r. cbn. repeat split; auto. intros x [->|[]]. lia.
  - destruct (IH ltac:(discriminate)) as (o & -> & I & M). destruct (Z.ltb_spec (c_used o) (c_used r)).
    + exists o. split; auto. split; [right; auto|]. intros x [->|X]; [lia|auto].
    + exists r. split; auto. split; [left; auto|]. intros x [->|X]; [lia|]. specialize (M x X). lia.
Qed.

Lemma cache_size_app size a b : cache_size size (a ++ b) = cache_size size a + cache_size size b.
Proof. induction a; cbn; auto. unfold cache_size in *. lia. Qed.

Lemma delete_unique k a o b : NoDup (map c_key (a ++ o :: b)) -> c_key o = k -> cache_delete k (a ++ o :: b) = (a ++ b)%list.
Proof.
  intros N K. unfold cache_delete. rewrite filter_app. cbn. rewrite K, String.eqb_refl. cbn.
  rewrite map_app in N. cbn in N. apply NoDup_remove_2 in N. rewrite in_app_iff in N.
  assert (F : forall l, ~ In (c_key o) (map c_key l) -> filter (fun r => negb (String.eqb (c_key r) k)) l = l).
  { induction l as [|x l IH]; cbn; auto. intros H. destruct (String.eqb_spec (c_key x) k); [exfalso; apply H; left; congruence|].
    cbn. rewrite IH; auto. }
  rewrite !F; auto.
Qed.

Lemma shrink_spec size max : (forall r, 0 <= size r) -> 0 <= max -> forall fuel c,
  (List.length c <= fuel)%nat -> NoDup (map c_key c) ->
  let c' := shrink fuel size max c in
  cache_size size c' <= max /\ NoDup (map c_key c') /\ (forall r, In r c' -> In r c) /\
  (forall r x, In r c -> ~ In r c' -> In x c' -> c_used r <= c_used x) /\
  (c' = c \/ exists r, In r c /\ ~ In r c' /\ max < cache_size size c' + size r).
Proof.
  intros P M. induction fuel as [|fuel IH]; intros c L N.
  - destruct c; [|cbn in L; lia]. cbn. repeat split; auto; try lia; intros; contradiction.
  - cbn [shrink]. destruct (Z.ltb_spec max (cache_size size c)) as [G|G].
    + assert (NE : c <> []) by (intros ->; cbn in G; lia).
      destruct (oldest_some c NE) as (o & O & I & OM). unfold cache_delete_oldest. rewrite O.
      apply in_split in I. destruct I as (a & b & E). subst c.
      rewrite delete_unique by auto.
      assert (N' : NoDup (map c_key (a ++ b))).
      { rewrite map_app in *. cbn in N. apply NoDup_remove_1 in N. exact N. }
      assert (L' : (List.length (a ++ b) <= fuel)%nat) by (rewrite app_length in *; cbn in L; lia).
      specialize (IH (a ++ b)%list L' N'). cbv zeta in IH. set (c' := shrink fuel size max (a ++ b)) in *.
      destruct IH as (A & B & C & D & E).
      assert (NO : ~ In o c').
      { intros X. apply C in X. rewrite map_app in N. cbn in N. apply NoDup_remove_2 in N. apply N.
        rewrite <- map_app. apply in_map. exact X. }
      assert (SUB : forall r, In r (a ++ b) -> In r (a ++ o :: b)) by (intros r; rewrite !in_app_iff; cbn; tauto).
      repeat split; auto.
      * intros r x X Y Z. destruct (in_app_or _ _ _ X) as [X1|[->|X1]].
        -- apply D; auto. rewrite in_app_iff. auto.
        -- apply OM. auto.
        -- apply D; auto. rewrite in_app_iff. auto.
      * right. destruct E as [E|(r & E1 & E2 & E3)].
        -- exists o. split; [apply in_elt|]. split; auto. rewrite E, cache_size_app in *.
           change (cache_size size (o :: b)) with (size o + cache_size size b) in G. lia.
        -- exists r. auto.
    + repeat split; auto; try lia. intros r x X Y. contradiction.
Qed.

Lemma row_expired_iff now lifetime r : c_expiry r = i_expiry (c_info r) ->
  (row_expired now lifetime r = false <-> fresh lifetime now r).
Proof.
  intros E. unfold row_expired, fresh. rewrite E, orb_false_iff.
  destruct lifetime as [l|], (i_expiry (c_info r)) as [e|]; rewrite ?Z.ltb_ge; split; intros [A B]; split; try congruence;
    try (intros ? H; injection H as <-; lia); try reflexivity; try (apply A; reflexivity); try (apply B; reflexivity).
  all: specialize (A l eq_refl); lia.
Qed.
