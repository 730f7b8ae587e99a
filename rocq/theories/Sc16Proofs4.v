(** Replacing profiles, the invariant over whole histories, and the database. *)

From Coq Require Import ZArith List Bool Permutation Sorted Lia.
From Coq Require Import ZifyBool.
From Verif Require Import Prof16Model Prof16Spec Sc16Model Sc16Spec Sc16Proofs2 Sc16Proofs3.
Import ListNotations.
Open Scope Z_scope.

Lemma connector_at_some h i : (exists c, connector_at h i = Some c) <-> 0 <= i < Z.of_nat (length (h_conns h)).
Proof.
  unfold connector_at. destruct (Z.ltb_spec i 0).
  - split; [intros (c & E); discriminate|lia].
  - split.
    + intros (c & E). assert (K : nth_error (h_conns h) (Z.to_nat i) <> None) by congruence.
      apply nth_error_Some in K. lia.
    + intros Hi. destruct (nth_error (h_conns h) (Z.to_nat i)) as [c|] eqn:E; [exists c; reflexivity|].
      apply nth_error_None in E. lia.
Qed.

Lemma target_iff h conn p w :
  0 <= conn < Z.of_nat (length (h_conns h)) ->
  (target h conn p w <-> target_b conn p w = true /\ map_at h w <> None).
Proof.
  intros Hc. pose proof (connector_at_some h) as CA.
  unfold target, target_b. destruct (pf_purpose p); destruct w as [|i|i]; cbn [map_at].
  - split; [intros _; split; [reflexivity|discriminate]|reflexivity].
  - split; [discriminate|intros [? _]; discriminate].
  - split; [discriminate|intros [? _]; discriminate].
  - split; [intros (i & E & _); discriminate|intros [? _]; discriminate].
  - split.
    + intros (j & E & H). injection E as <-. split.
      * destruct (Z.eqb_spec conn 0); lia.
      * destruct (proj2 (CA i)) as (c & ->); [lia|discriminate].
    + intros [Ht Hm]. exists i. split; [reflexivity|].
      assert (K : exists c, connector_at h i = Some c).
      { destruct (connector_at h i) as [c|]; [exists c; reflexivity|cbn in Hm; congruence]. }
      apply CA in K. destruct (Z.eqb_spec conn 0); lia.
  - split; [intros (j & E & _); discriminate|intros [? _]; discriminate].
  - split; [discriminate|intros [? _]; discriminate].
  - split; [discriminate|intros [? _]; discriminate].
  - split.
    + intros E; injection E as ->. split; [apply Z.eqb_refl|].
      destruct (proj2 (CA conn) Hc) as (c & ->). discriminate.
    + intros [Ht _]. f_equal. lia.
Qed.

Lemma holds_some h w q : holds h w q -> map_at h w <> None.
Proof. intros H. apply holds_map in H as (m & E & _). congruence. Qed.

Lemma holds_purpose h w q : handler_ok h -> holds h w q -> place_ok w q.
Proof.
  intros Hok H. apply handler_ok_iff in Hok as (H1 & _). apply holds_map in H as (m & E & Hin).
  destruct (H1 w m E) as [_ Hf]. apply in_map_iff in Hin as (kp & <- & Hin). rewrite Forall_forall in Hf.
  exact (proj2 (Hf kp Hin)).
Qed.

Lemma clear_all_holds h f ido w q :
  handler_ok h -> ido = (match f_id f with Some _ => true | None => false end) ->
  (holds (fst (clear_all_profiles_with_filter h f ido)) w q <-> holds h w q /\ ~ asked f w q).
Proof.
  intros Hok Ei. pose proof (clear_all_spec h f ido) as S.
  destruct (clear_all_profiles_with_filter h f ido) as [h1 b]. destruct S as (S1 & _). cbn [fst].
  rewrite !holds_map. split.
  - intros (m & Em & Hp). rewrite S1 in Em. destruct (map_at h w) as [m0|] eqn:Em0; [|discriminate].
    injection Em as <-. apply in_map_iff in Hp as (kp & <- & Hin). apply filter_In in Hin as [Hin Hn].
    split; [exists m0; split; [reflexivity|apply in_map; exact Hin]|].
    intros Ha. apply (mt_asked h f ido w m0 kp Hok Em0 Hin Ei) in Ha. rewrite Ha in Hn. discriminate.
  - intros ((m0 & Em0 & Hp) & Hn). rewrite S1, Em0. cbn [option_map]. eexists; split; [reflexivity|].
    apply in_map_iff in Hp as (kp & <- & Hin). apply in_map. apply filter_In. split; [exact Hin|].
    destruct (mt f ido (connector_of w) kp) eqn:Eb; [|reflexivity]. exfalso. apply Hn.
    apply (mt_asked h f ido w m0 kp Hok Em0 Hin Ei). exact Eb.
Qed.

Lemma clear_all_db h f ido r :
  handler_ok h -> ido = (match f_id f with Some _ => true | None => false end) ->
  (In r (h_db (fst (clear_all_profiles_with_filter h f ido))) <->
   In r (h_db h) /\ forall w p, holds h w p -> asked f w p -> pf_id (snd r) <> pf_id p).
Proof.
  intros Hok Ei. pose proof (clear_all_spec h f ido) as S.
  destruct (clear_all_profiles_with_filter h f ido) as [h1 b]. destruct S as (_ & _ & _ & S4). cbn [fst].
  rewrite S4. split; intros (H1 & H2); (split; [exact H1|]).
  - intros w p Hh Ha. apply holds_map in Hh as (m & Em & Hp).
    apply in_map_iff in Hp as (kp & <- & Hin). apply (H2 w m Em kp Hin).
    apply (mt_asked h f ido w m kp Hok Em Hin Ei). exact Ha.
  - intros w m Em kp Hin Hm. apply (H2 w (snd kp)).
    + apply holds_map. exists m. split; [exact Em|apply in_map; exact Hin].
    + apply (mt_asked h f ido w m kp Hok Em Hin Ei). exact Hm.
Qed.

Lemma clear_all_tx h f ido : transactions (fst (clear_all_profiles_with_filter h f ido)) = transactions h.
Proof.
  pose proof (clear_all_spec h f ido) as S.
  destruct (clear_all_profiles_with_filter h f ido) as [h1 b]. apply S.
Qed.

(** ** C19 *)

Definition by_id_filter (p : profile) : filt :=
  {| f_id := Some (pf_id p); f_conn := None; f_stack := None; f_purpose := None |}.
Definition slot_filter (conn : Z) (p : profile) : filt :=
  {| f_id := None; f_conn := Some conn; f_stack := Some (pf_stack p); f_purpose := Some (pf_purpose p) |}.

Definition cleared_for (h : handler) (conn : Z) (p : profile) : handler :=
  fst (clear_all_profiles_with_filter
         (fst (clear_all_profiles_with_filter h (by_id_filter p) true)) (slot_filter conn p) false).

Lemma set_unfold g h now conn p :
  set_charging_profile g h now conn p =
  if negb (existsb (purpose_eqb (pf_purpose p)) (g_purposes g)) then (h, false)
  else match validate_profile g h now p conn false with
       | None => (h, false)
       | Some q => (add_by_purpose (cleared_for h conn q) q conn, true)
       end.
Proof.
  unfold set_charging_profile. destruct (negb _); [reflexivity|].
  destruct (validate_profile g h now p conn false) as [q|]; [|reflexivity].
  unfold cleared_for, by_id_filter, slot_filter.
  destruct (clear_all_profiles_with_filter h _ true) as [h1 b1]. cbn [fst].
  destruct (clear_all_profiles_with_filter h1 _ false) as [h2 b2]. reflexivity.
Qed.

Lemma cleared_ok h conn p : handler_ok h -> handler_ok (cleared_for h conn p).
Proof. intros H. apply clear_all_ok. apply clear_all_ok. exact H. Qed.

Lemma cleared_tx h conn p : transactions (cleared_for h conn p) = transactions h.
Proof. unfold cleared_for. rewrite !clear_all_tx. reflexivity. Qed.

Lemma cleared_holds h conn p w q :
  handler_ok h ->
  (holds (cleared_for h conn p) w q <->
   holds h w q /\ pf_id q <> pf_id p /\
   ~ (connector_of w = conn /\ pf_stack q = pf_stack p /\ pf_purpose q = pf_purpose p)).
Proof.
  intros Hok. unfold cleared_for.
  rewrite clear_all_holds; [|apply clear_all_ok; exact Hok|reflexivity].
  rewrite clear_all_holds; [|exact Hok|reflexivity].
  unfold asked, by_id_filter, slot_filter; cbn.
  split.
  - intros ((H1 & H2) & H3). split; [exact H1|]. split; [exact H2|]. intros (K1 & K2 & K3). apply H3.
    repeat split; intros x E; injection E as <-; assumption.
  - intros (H1 & H2 & H3). split; [split; assumption|]. intros (K1 & K2 & K3). apply H3.
    repeat split; [apply K1|apply K2|apply K3]; reflexivity.
Qed.

Lemma target_conns h h' conn p w :
  length (h_conns h') = length (h_conns h) -> (target h' conn p w <-> target h conn p w).
Proof. intros E. unfold target. rewrite E. tauto. Qed.

Lemma set_holds h conn p w q :
  handler_ok h -> 0 <= conn < Z.of_nat (length (h_conns h)) ->
  (pf_purpose p = PMax -> conn = 0) -> (pf_purpose p = PTx -> conn <> 0) ->
  (holds (add_by_purpose (cleared_for h conn p) p conn) w q <->
   (target h conn p w /\ q = p) \/
   (holds h w q /\ pf_id q <> pf_id p /\ ~ (target h conn p w /\ pf_stack q = pf_stack p))).
Proof.
  intros Hok Hc Hm Hx.
  assert (El : length (h_conns (cleared_for h conn p)) = length (h_conns h))
    by (apply conns_len_tx; apply cleared_tx).
  assert (Hc' : 0 <= conn < Z.of_nat (length (h_conns (cleared_for h conn p)))) by (rewrite El; exact Hc).
  rewrite add_holds; [|apply cleared_ok; exact Hok|lia].
  pose proof (target_iff (cleared_for h conn p) conn p w Hc') as T'.
  rewrite (target_conns _ _ conn p w El) in T'.
  rewrite cleared_holds by exact Hok.
  assert (Slot : holds h w q -> connector_of w = conn -> pf_purpose q = pf_purpose p -> target h conn p w).
  { intros Hh Ec Ep. pose proof (holds_purpose h w q Hok Hh) as Pl. pose proof (holds_some h w q Hh) as Hs.
    apply target_iff; [exact Hc|]. split; [|exact Hs].
    unfold target_b. destruct w; cbn in Ec, Pl.
    - destruct Pl as [Pl _]. rewrite <- Ep, Pl. reflexivity.
    - rewrite <- Ep, Pl. subst conn0. destruct (Z.eqb_spec conn 0); [|apply Z.eqb_refl].
      exfalso. subst conn. apply handler_ok_iff in Hok as (_ & _ & H3 & _). exact (H3 q Hh).
    - rewrite <- Ep, Pl. subst. apply Z.eqb_refl. }
  split.
  - intros [(T1 & T2 & ->)|((H1 & H2 & H3) & H4)].
    + left. split; [apply T'; split; assumption|reflexivity].
    + right. split; [exact H1|]. split; [exact H2|]. intros (Ht & Es). apply H4. split; [|exact Es].
      apply T' in Ht. apply Ht.
  - intros [(Ht & ->)|(H1 & H2 & H3)].
    + left. apply T' in Ht. destruct Ht. auto.
    + right. split; [split; [exact H1|split; [exact H2|]]|].
      * intros (K1 & K2 & K3). apply H3. split; [apply Slot; assumption|exact K2].
      * intros (K1 & K2). apply H3. split; [|exact K2]. apply target_iff; [exact Hc|].
        split; [exact K1|exact (holds_some h w q H1)].
Qed.

Lemma unique_set h conn p :
  handler_ok h -> unique_ids h -> 0 <= conn < Z.of_nat (length (h_conns h)) ->
  (pf_purpose p = PMax -> conn = 0) -> (pf_purpose p = PTx -> conn <> 0) ->
  unique_ids (add_by_purpose (cleared_for h conn p) p conn).
Proof.
  intros Hok Hu Hc Hm Hx w1 w2 p1 p2 H1 H2 E.
  apply set_holds in H1; try assumption. apply set_holds in H2; try assumption.
  destruct H1 as [(_ & ->)|(H1 & N1 & _)], H2 as [(_ & ->)|(H2 & N2 & _)].
  - reflexivity.
  - congruence.
  - congruence.
  - exact (Hu w1 w2 p1 p2 H1 H2 E).
Qed.

(** ** expiry and end of transaction *)

Lemma expired_iff now p : expired now p = true <-> is_over now p.
Proof.
  unfold expired, is_over. rewrite orb_true_iff, andb_true_iff, kind_eqb_iff.
  assert (E1 : match pf_to p with Some t => t <? now | None => false end = true <->
               exists t, pf_to p = Some t /\ t < now).
  { destruct (pf_to p) as [t|]; [rewrite Z.ltb_lt|]; split.
    - intros; exists t; auto.
    - intros (t' & E & H); injection E as <-; exact H.
    - discriminate.
    - intros (t' & E & _); discriminate. }
  assert (E2 : match sc_start (pf_sched p), sc_duration (pf_sched p) with
               | Some s, Some d => s + d * NS <? now | _, _ => false end = true <->
               exists s d, sc_start (pf_sched p) = Some s /\ sc_duration (pf_sched p) = Some d /\
                           s + d * 1000000000 < now).
  { destruct (sc_start (pf_sched p)) as [s|], (sc_duration (pf_sched p)) as [d|].
    - rewrite Z.ltb_lt. unfold NS. split.
      + intros; exists s, d; auto.
      + intros (s' & d' & Es & Ed & H). injection Es as <-. injection Ed as <-. exact H.
    - split; [discriminate|]. intros (s' & d' & _ & E & _); discriminate.
    - split; [discriminate|]. intros (s' & d' & E & _); discriminate.
    - split; [discriminate|]. intros (s' & d' & E & _); discriminate. }
  rewrite E1, E2. tauto.
Qed.

Definition exp (now : Z) (kp : Z * profile) : bool := expired now (snd kp).

Lemma clear_expired_map_spec now m : forall d,
  fst (clear_expired_map now m d) = filter (fun kp => negb (exp now kp)) m /\
  (forall r, In r (snd (clear_expired_map now m d)) <-> In r d /\ not_deleted (exp now) m r).
Proof.
  induction m as [|[k p] m IH]; intros d; cbn [clear_expired_map filter].
  - split; [reflexivity|]. intros r. unfold not_deleted. cbn. intuition.
  - unfold exp at 1. cbn [snd]. destruct (expired now p) eqn:E; cbn [negb].
    + destruct (IH (db_delete (pf_id p) d)) as [I1 I2]. split; [exact I1|]. intros r. rewrite I2, in_db_delete.
      unfold not_deleted. split.
      * intros ((H1 & H2) & H3). split; [exact H1|]. intros kp [<-|Hin] Hb; [exact H2|exact (H3 kp Hin Hb)].
      * intros (H1 & H2). split; [split; [exact H1|exact (H2 (k, p) (or_introl eq_refl) E)]|].
        intros kp Hin. apply H2. right; exact Hin.
    + destruct (IH d) as [I1 I2]. destruct (clear_expired_map now m d) as [r' d']. cbn [fst snd] in *.
      split; [f_equal; exact I1|]. intros r. rewrite I2. unfold not_deleted. split.
      * intros (H1 & H2). split; [exact H1|]. intros kp [<-|Hin] Hb; [unfold exp in Hb; cbn in Hb; congruence|exact (H2 kp Hin Hb)].
      * intros (H1 & H2). split; [exact H1|]. intros kp Hin. apply H2. right; exact Hin.
Qed.

Definition exp_conn (now : Z) (c : connector) : connector :=
  {| c_tx := c_tx c;
     c_txdefault := filter (fun kp => negb (exp now kp)) (c_txdefault c);
     c_txprofiles := filter (fun kp => negb (exp now kp)) (c_txprofiles c) |}.

Lemma clear_expired_conns_spec now cs : forall d,
  fst (clear_expired_conns now cs d) = map (exp_conn now) cs /\
  (forall r, In r (snd (clear_expired_conns now cs d)) <-> In r d /\
     forall c, In c cs -> not_deleted (exp now) (c_txdefault c) r /\ not_deleted (exp now) (c_txprofiles c) r).
Proof.
  induction cs as [|c cs IH]; intros d; cbn [clear_expired_conns map].
  - split; [reflexivity|]. cbn. intuition.
  - destruct (clear_expired_map_spec now (c_txdefault c) d) as [A1 A2].
    destruct (clear_expired_map now (c_txdefault c) d) as [m1 d1]. cbn [fst snd] in *.
    destruct (clear_expired_map_spec now (c_txprofiles c) d1) as [B1 B2].
    destruct (clear_expired_map now (c_txprofiles c) d1) as [m2 d2]. cbn [fst snd] in *.
    destruct (IH d2) as [C1 C2]. destruct (clear_expired_conns now cs d2) as [r' d3]. cbn [fst snd] in *.
    subst. split; [reflexivity|]. intros r. rewrite C2, B2, A2. split.
    + intros (((H1 & H2) & H3) & H4). split; [exact H1|]. intros c' [<-|Hin]; [split; assumption|exact (H4 c' Hin)].
    + intros (H1 & H2). destruct (H2 c (or_introl eq_refl)). repeat split; try assumption;
        intros; apply H2; right; assumption.
Qed.

Lemma expire_map_at now h w :
  map_at (clear_expired_profiles now h) w = option_map (filter (fun kp => negb (exp now kp))) (map_at h w).
Proof.
  unfold clear_expired_profiles.
  destruct (clear_expired_map_spec now (h_max h) (h_db h)) as [A1 A2].
  destruct (clear_expired_map now (h_max h) (h_db h)) as [m1 d1].
  destruct (clear_expired_conns_spec now (h_conns h) d1) as [B1 B2].
  destruct (clear_expired_conns now (h_conns h) d1) as [cs d2]. cbn [fst snd] in *. subst.
  destruct w; cbn [map_at option_map h_max].
  - reflexivity.
  - unfold connector_at. cbn [h_conns]. destruct (conn <? 0); [reflexivity|]. rewrite nth_error_map.
    destruct (nth_error (h_conns h) (Z.to_nat conn)); reflexivity.
  - unfold connector_at. cbn [h_conns]. destruct (conn <? 0); [reflexivity|]. rewrite nth_error_map.
    destruct (nth_error (h_conns h) (Z.to_nat conn)); reflexivity.
Qed.

Lemma expire_tx now h : transactions (clear_expired_profiles now h) = transactions h.
Proof.
  unfold clear_expired_profiles, transactions.
  destruct (clear_expired_map now (h_max h) (h_db h)) as [m1 d1].
  destruct (clear_expired_conns_spec now (h_conns h) d1) as [B1 B2].
  destruct (clear_expired_conns now (h_conns h) d1) as [cs d2]. cbn [fst snd h_conns] in *. subst.
  rewrite map_map. reflexivity.
Qed.

Lemma expire_holds now h w q : holds (clear_expired_profiles now h) w q <-> holds h w q /\ ~ is_over now q.
Proof.
  rewrite !holds_map, expire_map_at. split.
  - intros (m & Em & Hq). destruct (map_at h w) as [m0|]; [|discriminate]. injection Em as <-.
    apply in_map_iff in Hq as (kp & <- & Hin). apply filter_In in Hin as [Hin Hn].
    split; [exists m0; split; [reflexivity|apply in_map; exact Hin]|]. intros K. apply expired_iff in K.
    unfold exp in Hn. rewrite K in Hn. discriminate.
  - intros ((m0 & -> & Hq) & Hn). cbn. eexists; split; [reflexivity|].
    apply in_map_iff in Hq as (kp & <- & Hin). apply in_map. apply filter_In. split; [exact Hin|].
    unfold exp. destruct (expired now (snd kp)) eqn:E; [|reflexivity]. exfalso. apply Hn. apply expired_iff. exact E.
Qed.

Lemma expire_db now h r :
  In r (h_db (clear_expired_profiles now h)) <->
  In r (h_db h) /\ forall w p, holds h w p -> is_over now p -> pf_id (snd r) <> pf_id p.
Proof.
  unfold clear_expired_profiles.
  destruct (clear_expired_map_spec now (h_max h) (h_db h)) as [A1 A2].
  destruct (clear_expired_map now (h_max h) (h_db h)) as [m1 d1].
  destruct (clear_expired_conns_spec now (h_conns h) d1) as [B1 B2].
  destruct (clear_expired_conns now (h_conns h) d1) as [cs d2]. cbn [fst snd h_db] in *.
  rewrite B2, A2. unfold not_deleted. split.
  - intros ((H1 & H2) & H3). split; [exact H1|]. intros w p Hh Ho. apply holds_map in Hh as (m & Em & Hp).
    apply in_map_iff in Hp as (kp & <- & Hin). apply expired_iff in Ho.
    destruct w; cbn in Em.
    + injection Em as <-. exact (H2 kp Hin Ho).
    + unfold connector_at in Em. destruct (conn <? 0); [discriminate|].
      destruct (nth_error (h_conns h) (Z.to_nat conn)) as [c|] eqn:En; [|discriminate]. injection Em as <-.
      destruct (H3 c (nth_error_In _ _ En)) as [K _]. exact (K kp Hin Ho).
    + unfold connector_at in Em. destruct (conn <? 0); [discriminate|].
      destruct (nth_error (h_conns h) (Z.to_nat conn)) as [c|] eqn:En; [|discriminate]. injection Em as <-.
      destruct (H3 c (nth_error_In _ _ En)) as [_ K]. exact (K kp Hin Ho).
  - intros (H1 & H2). split; [split; [exact H1|]|].
    + intros kp Hin Hb. apply (H2 AtStation (snd kp)); [apply in_map; exact Hin|apply expired_iff; exact Hb].
    + intros c Hc. apply In_nth_error in Hc as (n & En).
      assert (Ec : connector_at h (Z.of_nat n) = Some c).
      { unfold connector_at. destruct (Z.ltb_spec (Z.of_nat n) 0); [lia|]. rewrite Nat2Z.id. exact En. }
      split; intros kp Hin Hb.
      * apply (H2 (AtDefault (Z.of_nat n)) (snd kp)); [|apply expired_iff; exact Hb].
        exists c. split; [exact Ec|apply in_map; exact Hin].
      * apply (H2 (AtTx (Z.of_nat n)) (snd kp)); [|apply expired_iff; exact Hb].
        exists c. split; [exact Ec|apply in_map; exact Hin].
Qed.

(** setting the transaction of a connector leaves the maps alone *)
Lemma set_tx_map_at h i t w :
  map_at (set_conns h (update_nth i (fun c => set_c_tx c t) (h_conns h))) w = map_at h w.
Proof.
  destruct w; cbn [map_at set_conns h_max]; [reflexivity| |];
    unfold connector_at; cbn [set_conns h_conns]; destruct (conn <? 0); try reflexivity;
    rewrite nth_error_update; destruct (nth_error (h_conns h) (Z.to_nat conn)); try reflexivity;
    cbn; destruct (Nat.eqb i (Z.to_nat conn)); reflexivity.
Qed.

Lemma same_maps_ok h h' :
  (forall w, map_at h' w = map_at h w) -> length (h_conns h') = length (h_conns h) ->
  handler_ok h -> handler_ok h'.
Proof.
  intros Hm Hl Hok. apply handler_ok_iff in Hok as (H1 & H2 & H3 & H4). apply handler_ok_iff.
  split; [|split; [|split]].
  - intros w m. rewrite Hm. apply H1.
  - intros E. rewrite E in Hl. destruct (h_conns h); [congruence|discriminate].
  - intros p Hp. apply (H3 p). apply holds_map. apply holds_map in Hp. rewrite Hm in Hp. exact Hp.
  - intros p Hp. apply (H4 p). apply holds_map. apply holds_map in Hp. rewrite Hm in Hp. exact Hp.
Qed.

Lemma same_maps_holds h h' w q : (forall w, map_at h' w = map_at h w) -> (holds h' w q <-> holds h w q).
Proof. intros Hm. rewrite !holds_map, Hm. tauto. Qed.

Definition tx_filter (conn : Z) : filt :=
  {| f_id := None; f_conn := Some conn; f_stack := None; f_purpose := Some PTx |}.

Lemma stopped_holds h conn w q :
  handler_ok h ->
  (holds (transaction_stopped h conn) w q <-> holds h w q /\ w <> AtTx conn).
Proof.
  intros Hok. unfold transaction_stopped.
  set (h1 := set_conns h (update_nth (Z.to_nat conn) (fun c => set_c_tx c None) (h_conns h))).
  assert (Hm : forall w, map_at h1 w = map_at h w) by (intros; apply set_tx_map_at).
  assert (Hok1 : handler_ok h1).
  { apply (same_maps_ok h h1 Hm); [|exact Hok]. cbn. apply update_nth_length. }
  rewrite clear_all_holds; [|exact Hok1|reflexivity]. rewrite (same_maps_holds h h1 w q Hm).
  unfold asked. cbn. split; intros (H1 & H2); (split; [exact H1|]).
  - intros ->. apply H2. split; [intros c E; injection E as <-; reflexivity|]. split; [discriminate|].
    intros u E; injection E as <-. exact (holds_purpose h _ q Hok H1).
  - intros (K1 & _ & K3). specialize (K1 _ eq_refl). specialize (K3 _ eq_refl). apply H2.
    pose proof (holds_purpose h w q Hok H1) as Pl. destruct w; cbn in Pl, K1; [destruct Pl; congruence|congruence|congruence].
Qed.

(** ** every history *)

Lemma fresh_ok n : handler_ok (fresh n).
Proof.
  assert (K : forall m, Forall conn_ok (repeat {| c_tx := None; c_txdefault := []; c_txprofiles := [] |} m)).
  { induction m; cbn; [apply Forall_nil|]. apply Forall_cons; [|exact IHm].
    split; split; cbn; constructor. }
  unfold handler_ok, fresh. split; [split; cbn; constructor|]. split; [apply K|].
  cbn. eexists _, _. split; [reflexivity|]. split; reflexivity.
Qed.

Lemma load_rows_ok g now ps : forall h, handler_ok h -> handler_ok (load_rows g now h ps).
Proof.
  induction ps as [|p ps IH]; intros h Hok; cbn [load_rows]; [exact Hok|].
  destruct (find (fun x => pf_id (snd x) =? pf_id p) (h_db h)) as [[conn r]|]; [|apply IH; exact Hok].
  assert (Hdb : forall d, handler_ok (set_db h d)).
  { intros d. apply (same_maps_ok h (set_db h d)); [|reflexivity|exact Hok]. intros [| |]; reflexivity. }
  destruct (validate_profile g h now p conn false) as [p'|] eqn:Ev; [|apply IH; apply Hdb].
  destruct (existsb (purpose_eqb (pf_purpose p')) (g_purposes g)); [|apply IH; apply Hdb].
  apply IH. destruct (validate_basic _ _ _ _ _ _ _ Ev) as (V1 & _ & _ & _ & V2 & V3).
  apply add_ok; assumption.
Qed.

Lemma step_ok g h o : handler_ok h -> handler_ok (step g h o).
Proof.
  intros Hok. destruct o; cbn [step].
  - rewrite set_unfold. destruct (negb _); [exact Hok|].
    destruct (validate_profile g h now p conn false) as [q|] eqn:Ev; [|exact Hok]. cbn [fst].
    destruct (validate_basic _ _ _ _ _ _ _ Ev) as (V1 & _ & _ & _ & V2 & V3).
    apply add_ok; try assumption. apply cleared_ok. exact Hok.
  - unfold remote_start_profile. destruct conn as [c|]; [|exact Hok].
    destruct (purpose_eqb (pf_purpose p) PTx) eqn:Ep; [|exact Hok].
    destruct (validate_profile g h now p c true) as [q|] eqn:Ev; [|exact Hok].
    destruct (validate_basic _ _ _ _ _ _ _ Ev) as (V1 & V0 & _ & _ & V2 & V3).
    apply purpose_eqb_iff in Ep. rewrite <- V0 in Ep.
    replace (add_tx_profile h q c) with (add_by_purpose h q c) by (unfold add_by_purpose; rewrite Ep; reflexivity).
    apply add_ok; assumption.
  - unfold clear_charging_profile.
    assert (Hall : handler_ok (clear_all_profiles h)).
    { apply (filter_all_ok h (clear_all_profiles h) (fun _ _ => false)); [exact Hok| |].
      - assert (F : forall (m : pmap), [] = filter (fun _ => false) m) by (induction m; cbn; auto).
        intros w. destruct w; cbn [map_at clear_all_profiles h_max option_map].
        + rewrite <- F. reflexivity.
        + unfold connector_at, clear_all_profiles. cbn [h_conns]. destruct (conn <? 0); [reflexivity|]. rewrite nth_error_map.
          destruct (nth_error (h_conns h) (Z.to_nat conn)); cbn; [rewrite <- F|]; reflexivity.
        + unfold connector_at, clear_all_profiles. cbn [h_conns]. destruct (conn <? 0); [reflexivity|]. rewrite nth_error_map.
          destruct (nth_error (h_conns h) (Z.to_nat conn)); cbn; [rewrite <- F|]; reflexivity.
      - unfold transactions, clear_all_profiles. cbn. rewrite map_map. reflexivity. }
    destruct (f_id f), (f_conn f), (f_purpose f), (f_stack f); try (apply clear_all_ok; exact Hok). exact Hall.
  - apply (same_maps_ok h); [intros w; apply set_tx_map_at|cbn; apply update_nth_length|exact Hok].
  - unfold transaction_stopped. apply clear_all_ok.
    apply (same_maps_ok h); [intros w; apply set_tx_map_at|cbn; apply update_nth_length|exact Hok].
  - apply (filter_all_ok h _ (fun _ kp => negb (exp now kp)) Hok); [intros w; apply expire_map_at|apply expire_tx].
  - unfold restart, load_charging_profiles. apply load_rows_ok.
    unfold handler_ok. cbn. split; [split; cbn; constructor|]. split.
    + apply Forall_cons; [split; split; cbn; constructor|].
      apply Forall_forall. intros c Hc. apply in_map_iff in Hc as (t & <- & _). split; split; cbn; constructor.
    + eexists _, _. split; [reflexivity|]. split; reflexivity.
Qed.

Lemma run_ok g n os : handler_ok (run g n os).
Proof.
  unfold run. assert (H : handler_ok (fresh n)) by apply fresh_ok. revert H. generalize (fresh n).
  induction os as [|o os IH]; intros h H; cbn [fold_left]; [exact H|]. apply IH. apply step_ok. exact H.
Qed.
