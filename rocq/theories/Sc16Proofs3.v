(** Clearing, replacing and expiring charging profiles; the invariant of the handler. *)

From Coq Require Import ZArith List Bool Permutation Sorted Lia.
From Coq Require Import ZifyBool.
From Verif Require Import Prof16Model Prof16Spec Sc16Model Sc16Spec Sc16Proofs2.
Import ListNotations.
Open Scope Z_scope.

(** ** maps by place *)

Definition map_at (h : handler) (w : place) : option pmap :=
  match w with
  | AtStation => Some (h_max h)
  | AtDefault i => option_map c_txdefault (connector_at h i)
  | AtTx i => option_map c_txprofiles (connector_at h i)
  end.

Lemma holds_map h w p : holds h w p <-> exists m, map_at h w = Some m /\ In p (map snd m).
Proof.
  unfold holds, map_at. destruct w.
  - split; [intros H; exists (h_max h); auto|intros (m & E & H); injection E as <-; exact H].
  - split.
    + intros (c & -> & H). exists (c_txdefault c). auto.
    + intros (m & E & H). destruct (connector_at h conn) as [c|]; [|discriminate].
      injection E as <-. exists c; auto.
  - split.
    + intros (c & -> & H). exists (c_txprofiles c). auto.
    + intros (m & E & H). destruct (connector_at h conn) as [c|]; [|discriminate].
      injection E as <-. exists c; auto.
Qed.

Definition place_ok (w : place) (p : profile) : Prop :=
  match w with
  | AtStation => pf_purpose p = PMax /\ pf_kind p <> Relative
  | AtDefault _ => pf_purpose p = PTxDefault
  | AtTx _ => pf_purpose p = PTx
  end.

Lemma handler_ok_iff h :
  handler_ok h <->
  (forall w m, map_at h w = Some m -> map_ok (place_ok w) m) /\
  h_conns h <> [] /\
  (forall p, ~ holds h (AtDefault 0) p) /\ (forall p, ~ holds h (AtTx 0) p).
Proof.
  unfold handler_ok. split.
  - intros (H1 & H2 & (c0 & r & E & Ed & Et)). split; [|split; [|split]].
    + intros w m Hm. destruct w; cbn [map_at place_ok] in *.
      * injection Hm as <-. exact H1.
      * unfold connector_at in Hm. destruct (conn <? 0); [discriminate|].
        destruct (nth_error (h_conns h) (Z.to_nat conn)) as [c|] eqn:En; [|discriminate]. injection Hm as <-.
        rewrite Forall_forall in H2. apply (H2 c (nth_error_In _ _ En)).
      * unfold connector_at in Hm. destruct (conn <? 0); [discriminate|].
        destruct (nth_error (h_conns h) (Z.to_nat conn)) as [c|] eqn:En; [|discriminate]. injection Hm as <-.
        rewrite Forall_forall in H2. apply (H2 c (nth_error_In _ _ En)).
    + congruence.
    + intros p (c & Ec & Hp). unfold connector_at in Ec. cbn in Ec. rewrite E in Ec. injection Ec as <-.
      rewrite Ed in Hp. exact Hp.
    + intros p (c & Ec & Hp). unfold connector_at in Ec. cbn in Ec. rewrite E in Ec. injection Ec as <-.
      rewrite Et in Hp. exact Hp.
  - intros (H1 & H2 & H3 & H4). split; [exact (H1 AtStation _ eq_refl)|]. split.
    + apply Forall_forall. intros c Hc. apply In_nth_error in Hc as (i & Hi).
      assert (Ec : connector_at h (Z.of_nat i) = Some c).
      { unfold connector_at. destruct (Z.ltb_spec (Z.of_nat i) 0); [lia|]. rewrite Nat2Z.id. exact Hi. }
      split.
      * apply (H1 (AtDefault (Z.of_nat i))). cbn. rewrite Ec. reflexivity.
      * apply (H1 (AtTx (Z.of_nat i))). cbn. rewrite Ec. reflexivity.
    + destruct (h_conns h) as [|c0 r] eqn:E; [congruence|]. exists c0, r. split; [reflexivity|].
      assert (Ec : connector_at h 0 = Some c0) by (unfold connector_at; cbn; rewrite E; reflexivity).
      split.
      * destruct (c_txdefault c0) as [|[k p] m] eqn:Em; [reflexivity|]. exfalso. apply (H3 p).
        exists c0. split; [exact Ec|]. rewrite Em. left; reflexivity.
      * destruct (c_txprofiles c0) as [|[k p] m] eqn:Em; [reflexivity|]. exfalso. apply (H4 p).
        exists c0. split; [exact Ec|]. rewrite Em. left; reflexivity.
Qed.

(** ** filtering every map *)

Definition mt (f : filt) (id_only : bool) (conn : Z) (kp : Z * profile) : bool :=
  match f_id f with Some i => pf_id (snd kp) =? i | None => false end ||
  (negb id_only && opt_matches Z.eqb (f_conn f) conn && opt_matches Z.eqb (f_stack f) (fst kp) &&
   opt_matches purpose_eqb (f_purpose f) (pf_purpose (snd kp))).

Definition not_deleted (bad : Z * profile -> bool) (m : pmap) (r : row) : Prop :=
  forall kp, In kp m -> bad kp = true -> pf_id (snd r) <> pf_id (snd kp).

Lemma in_db_delete i d r : In r (db_delete i d) <-> In r d /\ pf_id (snd r) <> i.
Proof.
  unfold db_delete. rewrite filter_In. destruct (Z.eqb_spec (pf_id (snd r)) i); cbn; intuition congruence.
Qed.

Lemma clear_profiles_spec f conn ido m : forall d,
  let '(m', d', b) := clear_profiles m f conn ido d in
  m' = filter (fun kp => negb (mt f ido conn kp)) m /\
  b = existsb (mt f ido conn) m /\
  (forall r, In r d' <-> In r d /\ not_deleted (mt f ido conn) m r).
Proof.
  induction m as [|[k p] m IH]; intros d; cbn [clear_profiles].
  - split; [reflexivity|]. split; [reflexivity|]. intros r. unfold not_deleted. cbn. intuition.
  - assert (E : mt f ido conn (k, p) =
      match f_id f with Some i => pf_id p =? i | None => false end ||
      (negb ido && opt_matches Z.eqb (f_conn f) conn && opt_matches Z.eqb (f_stack f) k &&
       opt_matches purpose_eqb (f_purpose f) (pf_purpose p))) by reflexivity.
    cbn [filter existsb].
    assert (Del : forall (dd : list row) r, mt f ido conn (k, p) = true ->
              (In r (db_delete (pf_id p) dd) /\ not_deleted (mt f ido conn) m r <->
               In r dd /\ not_deleted (mt f ido conn) ((k, p) :: m) r)).
    { intros dd r Ht. rewrite in_db_delete. unfold not_deleted. split.
      - intros ((H1 & H2) & H3). split; [exact H1|]. intros kp [<-|Hin] Hb; [exact H2|exact (H3 kp Hin Hb)].
      - intros (H1 & H2). split; [split; [exact H1|exact (H2 (k, p) (or_introl eq_refl) Ht)]|].
        intros kp Hin. apply H2. right; exact Hin. }
    destruct (match f_id f with Some i => pf_id p =? i | None => false end) eqn:E1;
      [|destruct (negb ido && opt_matches Z.eqb (f_conn f) conn && opt_matches Z.eqb (f_stack f) k &&
       opt_matches purpose_eqb (f_purpose f) (pf_purpose p)) eqn:E2]; cbn [orb] in E.
    + specialize (IH (db_delete (pf_id p) d)).
      destruct (clear_profiles m f conn ido (db_delete (pf_id p) d)) as [[m' d'] b].
      destruct IH as (I1 & I2 & I3). rewrite E. cbn [negb orb]. split; [exact I1|]. split; [reflexivity|].
      intros r. rewrite I3. apply Del. exact E.
    + specialize (IH (db_delete (pf_id p) d)).
      destruct (clear_profiles m f conn ido (db_delete (pf_id p) d)) as [[m' d'] b].
      destruct IH as (I1 & I2 & I3). rewrite E. cbn [negb orb]. split; [exact I1|]. split; [reflexivity|].
      intros r. rewrite I3. apply Del. exact E.
    + specialize (IH d). destruct (clear_profiles m f conn ido d) as [[m' d'] b].
      destruct IH as (I1 & I2 & I3). rewrite E. cbn [negb orb]. split; [f_equal; exact I1|]. split; [exact I2|].
      intros r. rewrite I3. unfold not_deleted. split.
      * intros (H1 & H2). split; [exact H1|]. intros kp [<-|Hin] Hb; [congruence|exact (H2 kp Hin Hb)].
      * intros (H1 & H2). split; [exact H1|]. intros kp Hin. apply H2. right; exact Hin.
Qed.

Definition clear_conn (f : filt) (ido : bool) (i : Z) (c : connector) : connector :=
  {| c_tx := c_tx c;
     c_txdefault := filter (fun kp => negb (mt f ido i kp)) (c_txdefault c);
     c_txprofiles := filter (fun kp => negb (mt f ido i kp)) (c_txprofiles c) |}.

Fixpoint mapi {A B} (f : Z -> A -> B) (i : Z) (l : list A) : list B :=
  match l with [] => [] | x :: r => f i x :: mapi f (i + 1) r end.

Lemma nth_error_mapi {A B} (f : Z -> A -> B) l : forall i n,
  nth_error (mapi f i l) n = option_map (f (i + Z.of_nat n)) (nth_error l n).
Proof.
  induction l as [|x l IH]; intros i [|n]; cbn [mapi nth_error option_map]; try reflexivity.
  - rewrite Z.add_0_r. reflexivity.
  - rewrite IH. replace (i + 1 + Z.of_nat n) with (i + Z.of_nat (S n)) by lia. reflexivity.
Qed.

Lemma mapi_length {A B} (f : Z -> A -> B) l i : length (mapi f i l) = length l.
Proof. revert i; induction l as [|x l IH]; intros i; cbn; [reflexivity|]. rewrite IH. reflexivity. Qed.

Definition conns_undeleted (f : filt) (ido : bool) (i : Z) (cs : list connector) (r : row) : Prop :=
  forall n c, nth_error cs n = Some c ->
    not_deleted (mt f ido (i + Z.of_nat n)) (c_txdefault c) r /\
    not_deleted (mt f ido (i + Z.of_nat n)) (c_txprofiles c) r.

Lemma clear_conns_spec f ido cs : forall i d,
  let '(cs', d', b) := clear_conns cs i f ido d in
  cs' = mapi (clear_conn f ido) i cs /\
  (b = true <-> exists n c, nth_error cs n = Some c /\
     (existsb (mt f ido (i + Z.of_nat n)) (c_txdefault c) = true \/
      existsb (mt f ido (i + Z.of_nat n)) (c_txprofiles c) = true)) /\
  (forall r, In r d' <-> In r d /\ conns_undeleted f ido i cs r).
Proof.
  induction cs as [|c cs IH]; intros i d; cbn [clear_conns].
  - split; [reflexivity|]. split.
    + split; [discriminate|]. intros ([|n] & c & E & _); discriminate.
    + intros r. split; [intros H; split; [exact H|]|tauto]. intros [|n] c E; discriminate.
  - pose proof (clear_profiles_spec f i ido (c_txdefault c) d) as S1.
    destruct (clear_profiles (c_txdefault c) f i ido d) as [[m1 d1] b1].
    pose proof (clear_profiles_spec f i ido (c_txprofiles c) d1) as S2.
    destruct (clear_profiles (c_txprofiles c) f i ido d1) as [[m2 d2] b2].
    specialize (IH (i + 1) d2). destruct (clear_conns cs (i + 1) f ido d2) as [[cs' d3] b].
    destruct S1 as (-> & -> & D1), S2 as (-> & -> & D2), IH as (-> & B3 & D3).
    split; [reflexivity|]. split.
    + rewrite !orb_true_iff, B3. split.
      * intros [[H|H]|(n & c' & En & H)].
        -- exists O, c. split; [reflexivity|]. cbn [Z.of_nat]. rewrite Z.add_0_r. left; exact H.
        -- exists O, c. split; [reflexivity|]. cbn [Z.of_nat]. rewrite Z.add_0_r. right; exact H.
        -- exists (S n), c'. split; [exact En|]. replace (i + Z.of_nat (S n)) with (i + 1 + Z.of_nat n) by lia. exact H.
      * intros ([|n] & c' & En & H); cbn [nth_error] in En.
        -- injection En as <-. cbn [Z.of_nat] in H. rewrite Z.add_0_r in H. tauto.
        -- right. exists n, c'. split; [exact En|]. replace (i + 1 + Z.of_nat n) with (i + Z.of_nat (S n)) by lia. exact H.
    + intros r. rewrite D3, D2, D1. unfold conns_undeleted. split.
      * intros (((H1 & H2) & H3) & H4). split; [exact H1|]. intros [|n] c' En; cbn [nth_error] in En.
        -- injection En as <-. cbn [Z.of_nat]. rewrite Z.add_0_r. split; assumption.
        -- replace (i + Z.of_nat (S n)) with (i + 1 + Z.of_nat n) by lia. apply H4; exact En.
      * intros (H1 & H2). split.
        -- destruct (H2 O c eq_refl) as [K1 K2]. cbn [Z.of_nat] in K1, K2. rewrite Z.add_0_r in K1, K2.
           split; [split; assumption|assumption].
        -- intros n c' En. replace (i + 1 + Z.of_nat n) with (i + Z.of_nat (S n)) by lia. apply (H2 (S n) c' En).
Qed.

(** clear_all_profiles_with_filter, by place *)
Lemma connector_at_mapi f h h' i :
  h_conns h' = mapi f 0 (h_conns h) -> connector_at h' i = option_map (f i) (connector_at h i).
Proof.
  intros E. unfold connector_at. destruct (Z.ltb_spec i 0); [reflexivity|].
  rewrite E, nth_error_mapi. rewrite Z.add_0_l, Z2Nat.id by lia. reflexivity.
Qed.

Lemma clear_all_spec h f ido :
  let '(h', b) := clear_all_profiles_with_filter h f ido in
  (forall w, map_at h' w =
     option_map (filter (fun kp => negb (mt f ido (connector_of w) kp))) (map_at h w)) /\
  transactions h' = transactions h /\
  (b = true <-> exists w m kp, map_at h w = Some m /\ In kp m /\ mt f ido (connector_of w) kp = true) /\
  (forall r, In r (h_db h') <-> In r (h_db h) /\
     forall w m, map_at h w = Some m -> not_deleted (mt f ido (connector_of w)) m r).
Proof.
  unfold clear_all_profiles_with_filter.
  pose proof (clear_profiles_spec f 0 ido (h_max h) (h_db h)) as S1.
  destruct (clear_profiles (h_max h) f 0 ido (h_db h)) as [[m1 d1] b1].
  pose proof (clear_conns_spec f ido (h_conns h) 0 d1) as S2.
  destruct (clear_conns (h_conns h) 0 f ido d1) as [[cs d2] b2].
  destruct S1 as (-> & -> & D1), S2 as (-> & B2 & D2).
  assert (At : forall n c, nth_error (h_conns h) n = Some c -> connector_at h (Z.of_nat n) = Some c).
  { intros n c En. unfold connector_at. destruct (Z.ltb_spec (Z.of_nat n) 0); [lia|]. rewrite Nat2Z.id. exact En. }
  assert (Ta : forall i c, connector_at h i = Some c -> nth_error (h_conns h) (Z.to_nat i) = Some c /\ 0 <= i).
  { intros i c. unfold connector_at. destruct (Z.ltb_spec i 0); [discriminate|]. auto. }
  split; [|split; [|split]].
  - intros w. destruct w; cbn [map_at connector_of].
    + reflexivity.
    + rewrite (connector_at_mapi (clear_conn f ido) h) by reflexivity.
      destruct (connector_at h conn); reflexivity.
    + rewrite (connector_at_mapi (clear_conn f ido) h) by reflexivity.
      destruct (connector_at h conn); reflexivity.
  - unfold transactions. cbn [h_conns]. clear. generalize 0. induction (h_conns h) as [|c r IH]; intros i; cbn; [reflexivity|].
    f_equal. apply IH.
  - rewrite orb_true_iff, B2, existsb_exists. split.
    + intros [(kp & Hin & Hm)|(n & c & En & H)].
      * exists AtStation, (h_max h), kp. auto.
      * rewrite Z.add_0_l, !existsb_exists in H. destruct H as [(kp & Hin & Hm)|(kp & Hin & Hm)].
        -- exists (AtDefault (Z.of_nat n)), (c_txdefault c), kp. cbn. rewrite (At n c En). auto.
        -- exists (AtTx (Z.of_nat n)), (c_txprofiles c), kp. cbn. rewrite (At n c En). auto.
    + intros (w & m & kp & Em & Hin & Hm). destruct w; cbn in Em, Hm.
      * injection Em as <-. left. exists kp; auto.
      * right. destruct (connector_at h conn) as [c|] eqn:Ec; [|discriminate]. injection Em as <-.
        destruct (Ta _ _ Ec) as [En Hp]. exists (Z.to_nat conn), c. split; [exact En|]. left.
        rewrite Z.add_0_l, Z2Nat.id by exact Hp. apply existsb_exists. exists kp; auto.
      * right. destruct (connector_at h conn) as [c|] eqn:Ec; [|discriminate]. injection Em as <-.
        destruct (Ta _ _ Ec) as [En Hp]. exists (Z.to_nat conn), c. split; [exact En|]. right.
        rewrite Z.add_0_l, Z2Nat.id by exact Hp. apply existsb_exists. exists kp; auto.
  - intros r. cbn [h_db]. rewrite D2, D1. unfold conns_undeleted. split.
    + intros ((H1 & H2) & H3). split; [exact H1|]. intros w m Em. destruct w; cbn in Em |- *.
      * injection Em as <-. exact H2.
      * destruct (connector_at h conn) as [c|] eqn:Ec; [|discriminate]. injection Em as <-.
        destruct (Ta _ _ Ec) as [En Hp]. destruct (H3 _ _ En) as [K _].
        rewrite Z.add_0_l, Z2Nat.id in K by exact Hp. exact K.
      * destruct (connector_at h conn) as [c|] eqn:Ec; [|discriminate]. injection Em as <-.
        destruct (Ta _ _ Ec) as [En Hp]. destruct (H3 _ _ En) as [_ K].
        rewrite Z.add_0_l, Z2Nat.id in K by exact Hp. exact K.
    + intros (H1 & H2). split; [split; [exact H1|exact (H2 AtStation _ eq_refl)]|].
      intros n c En. rewrite Z.add_0_l. split.
      * apply (H2 (AtDefault (Z.of_nat n))). cbn. rewrite (At n c En). reflexivity.
      * apply (H2 (AtTx (Z.of_nat n))). cbn. rewrite (At n c En). reflexivity.
Qed.

(** ** C18 *)

Lemma mt_asked h f ido w m kp :
  handler_ok h -> map_at h w = Some m -> In kp m ->
  ido = (match f_id f with Some _ => true | None => false end) ->
  (mt f ido (connector_of w) kp = true <-> asked f w (snd kp)).
Proof.
  intros Hok Em Hin ->. apply handler_ok_iff in Hok as (H1 & _). destruct (H1 w m Em) as [_ Hf].
  rewrite Forall_forall in Hf. destruct (Hf kp Hin) as [Ek _].
  unfold mt, asked. destruct (f_id f) as [i|].
  - cbn [negb andb]. rewrite orb_false_r, Z.eqb_eq. tauto.
  - cbn [negb andb orb]. rewrite !andb_true_iff. rewrite Ek.
    assert (O1 : forall (o : option Z) x, opt_matches Z.eqb o x = true <-> (forall c, o = Some c -> x = c)).
    { intros [y|] x; cbn; [rewrite Z.eqb_eq|]; split; intros H; try (intros; discriminate); try reflexivity.
      - intros c E; congruence.
      - symmetry. apply H. reflexivity. }
    assert (O2 : forall (o : option purpose) x, opt_matches purpose_eqb o x = true <-> (forall c, o = Some c -> x = c)).
    { intros [y|] x; cbn; [rewrite purpose_eqb_iff|]; split; intros H; try (intros; discriminate); try reflexivity.
      - intros c E; congruence.
      - symmetry. apply H. reflexivity. }
    rewrite !O1, O2. tauto.
Qed.

Lemma clear_spec h f h' ok :
  handler_ok h -> some_criterion f -> clear_charging_profile h f = (h', ok) ->
  (forall w p, holds h' w p <-> holds h w p /\ ~ asked f w p) /\
  (ok = true <-> exists w p, holds h w p /\ asked f w p) /\
  transactions h' = transactions h /\
  (forall r, In r (h_db h') <-> In r (h_db h) /\
     forall w p, holds h w p -> asked f w p -> pf_id (snd r) <> pf_id p).
Proof.
  intros Hok Hsome.
  set (ido := match f_id f with Some _ => true | None => false end).
  assert (E : clear_charging_profile h f = clear_all_profiles_with_filter h f ido).
  { unfold clear_charging_profile, ido. destruct f as [[i|] c s u]; cbn.
    - reflexivity.
    - unfold some_criterion in Hsome; cbn in Hsome.
      destruct c, s, u; try reflexivity. exfalso. intuition congruence. }
  rewrite E. clear E Hsome.
  pose proof (clear_all_spec h f ido) as S.
  destruct (clear_all_profiles_with_filter h f ido) as [h1 b]. intros Ep. injection Ep as <- <-.
  destruct S as (S1 & S2 & S3 & S4).
  split; [|split; [|split]].
  - intros w p. rewrite !holds_map. split.
    + intros (m & Em & Hp). rewrite S1 in Em. destruct (map_at h w) as [m0|] eqn:Em0; [|discriminate].
      injection Em as <-. apply in_map_iff in Hp as (kp & <- & Hin). apply filter_In in Hin as [Hin Hn].
      split; [exists m0; split; [reflexivity|apply in_map; exact Hin]|].
      intros Ha. apply (mt_asked h f ido w m0 kp Hok Em0 Hin eq_refl) in Ha. rewrite Ha in Hn. discriminate.
    + intros ((m0 & Em0 & Hp) & Hn). rewrite S1, Em0. cbn [option_map]. eexists; split; [reflexivity|].
      apply in_map_iff in Hp as (kp & <- & Hin). apply in_map. apply filter_In. split; [exact Hin|].
      destruct (mt f ido (connector_of w) kp) eqn:Eb; [|reflexivity]. exfalso. apply Hn.
      apply (mt_asked h f ido w m0 kp Hok Em0 Hin eq_refl). exact Eb.
  - rewrite S3. split.
    + intros (w & m & kp & Em & Hin & Hm). exists w, (snd kp). split.
      * apply holds_map. exists m. split; [exact Em|apply in_map; exact Hin].
      * apply (mt_asked h f ido w m kp Hok Em Hin eq_refl). exact Hm.
    + intros (w & p & Hh & Ha). apply holds_map in Hh as (m & Em & Hp).
      apply in_map_iff in Hp as (kp & <- & Hin). exists w, m, kp. split; [exact Em|]. split; [exact Hin|].
      apply (mt_asked h f ido w m kp Hok Em Hin eq_refl). exact Ha.
  - exact S2.
  - intros r. rewrite S4. split; intros (H1 & H2); (split; [exact H1|]).
    + intros w p Hh Ha. apply holds_map in Hh as (m & Em & Hp).
      apply in_map_iff in Hp as (kp & <- & Hin). apply (H2 w m Em kp Hin).
      apply (mt_asked h f ido w m kp Hok Em Hin eq_refl). exact Ha.
    + intros w m Em kp Hin Hm. apply (H2 w (snd kp)).
      * apply holds_map. exists m. split; [exact Em|apply in_map; exact Hin].
      * apply (mt_asked h f ido w m kp Hok Em Hin eq_refl). exact Hm.
Qed.

Lemma clear_everything h h' ok :
  clear_charging_profile h {| f_id := None; f_conn := None; f_stack := None; f_purpose := None |} = (h', ok) ->
  ok = true /\ (forall w p, ~ holds h' w p) /\ transactions h' = transactions h /\ h_db h' = [].
Proof.
  cbn. intros E. injection E as <- <-. split; [reflexivity|]. split; [|split; [|reflexivity]].
  - intros w p H. destruct w; cbn in H.
    + exact H.
    + destruct H as (c & Ec & Hp). unfold connector_at in Ec. destruct (conn <? 0); [discriminate|]. cbn in Ec.
      rewrite nth_error_map in Ec. destruct (nth_error (h_conns h) (Z.to_nat conn)); [|discriminate].
      injection Ec as <-. exact Hp.
    + destruct H as (c & Ec & Hp). unfold connector_at in Ec. destruct (conn <? 0); [discriminate|]. cbn in Ec.
      rewrite nth_error_map in Ec. destruct (nth_error (h_conns h) (Z.to_nat conn)); [|discriminate].
      injection Ec as <-. exact Hp.
  - unfold transactions. cbn. rewrite map_map. reflexivity.
Qed.

(** ** maps ordered by key *)

Lemma in_mset k v m kp :
  StronglySorted Z.lt (map fst m) ->
  (In kp (mset k v m) <-> kp = (k, v) \/ (In kp m /\ fst kp <> k)).
Proof.
  induction m as [|[k' v'] m IH]; cbn [mset map]; intros Hs.
  - cbn. intuition.
  - inversion Hs as [|? ? Hs' Hf]; subst. rewrite Forall_forall in Hf.
    assert (Hgt : forall q, In q m -> k' < fst q).
    { intros q Hq. apply Hf. cbn. apply in_map. exact Hq. }
    destruct (Z.ltb_spec k k').
    + split.
      * intros [<-|Hin]; [left; reflexivity|]. right. split; [exact Hin|].
        destruct Hin as [<-|Hin]; cbn; [lia|]. specialize (Hgt kp Hin). lia.
      * intros [->|[Hin _]]; [left; reflexivity|right; exact Hin].
    + destruct (Z.eqb_spec k k') as [<-|Hne].
      * split.
        -- intros [<-|Hin]; [left; reflexivity|]. right. split; [right; exact Hin|].
           specialize (Hgt kp Hin). lia.
        -- intros [->|[[<-|Hin] Hn]]; [left; reflexivity|cbn in Hn; congruence|right; exact Hin].
      * cbn [In]. rewrite (IH Hs'). split.
        -- intros [<-|[->|[Hin Hn]]]; [right; split; [left; reflexivity|cbn; lia]|left; reflexivity|].
           right; split; [right; exact Hin|exact Hn].
        -- intros [->|[[<-|Hin] Hn]]; [right; left; reflexivity|left; reflexivity|].
           right; right; split; assumption.
Qed.

Lemma mset_sorted k v m :
  StronglySorted Z.lt (map fst m) -> StronglySorted Z.lt (map fst (mset k v m)).
Proof.
  induction m as [|[k' v'] m IH]; cbn [mset map]; intros Hs.
  - repeat constructor.
  - inversion Hs as [|? ? Hs' Hf]; subst. destruct (Z.ltb_spec k k').
    + cbn. constructor; [exact Hs|]. constructor; [cbn; lia|]. eapply Forall_impl; [|exact Hf]. cbn; intros; lia.
    + destruct (Z.eqb_spec k k') as [<-|Hne]; cbn [map fst]; [exact Hs|].
      constructor; [exact (IH Hs')|]. apply Forall_forall. intros x Hx.
      apply in_map_iff in Hx as (kp & <- & Hin). apply (in_mset k v m kp Hs') in Hin as [->|[Hin _]]; cbn; [lia|].
      rewrite Forall_forall in Hf. apply Hf. apply in_map. exact Hin.
Qed.

Lemma filter_sorted {A} (f : A -> bool) (g : A -> Z) l :
  StronglySorted Z.lt (map g l) -> StronglySorted Z.lt (map g (filter f l)).
Proof.
  induction l as [|x l IH]; cbn; intros Hs; [exact Hs|]. inversion Hs as [|? ? Hs' Hf]; subst.
  destruct (f x); [|exact (IH Hs')]. cbn. constructor; [exact (IH Hs')|].
  apply Forall_forall. intros y Hy. apply in_map_iff in Hy as (z & <- & Hz). apply filter_In in Hz as [Hz _].
  rewrite Forall_forall in Hf. apply Hf. apply in_map. exact Hz.
Qed.

Lemma filter_map_ok P f m : map_ok P m -> map_ok P (filter f m).
Proof.
  intros [H1 H2]. split; [apply filter_sorted; exact H1|].
  apply Forall_forall. intros x Hx. apply filter_In in Hx as [Hx _]. rewrite Forall_forall in H2. auto.
Qed.

Lemma mset_map_ok (P : profile -> Prop) p m : P p -> map_ok P m -> map_ok P (mset (pf_stack p) p m).
Proof.
  intros Hp [H1 H2]. split; [apply mset_sorted; exact H1|].
  apply Forall_forall. intros x Hx. apply (in_mset _ _ _ _ H1) in Hx as [->|[Hx _]]; [cbn; auto|].
  rewrite Forall_forall in H2. auto.
Qed.

Lemma in_map_mset P p m q :
  map_ok P m ->
  (In q (map snd (mset (pf_stack p) p m)) <-> q = p \/ (In q (map snd m) /\ pf_stack q <> pf_stack p)).
Proof.
  intros [H1 H2]. rewrite Forall_forall in H2. split.
  - intros Hq. apply in_map_iff in Hq as (kp & <- & Hin). apply (in_mset _ _ _ _ H1) in Hin as [->|[Hin Hn]].
    + left; reflexivity.
    + right. split; [apply in_map; exact Hin|]. rewrite <- (proj1 (H2 kp Hin)). exact Hn.
  - intros [->|[Hq Hn]].
    + apply in_map_iff. exists (pf_stack p, p). split; [reflexivity|]. apply (in_mset _ _ _ _ H1). left; reflexivity.
    + apply in_map_iff in Hq as (kp & <- & Hin). apply in_map. apply (in_mset _ _ _ _ H1). right.
      split; [exact Hin|]. rewrite (proj1 (H2 kp Hin)). exact Hn.
Qed.

(** ** adding *)

Lemma nth_error_update {A} (f : A -> A) l : forall i j,
  nth_error (update_nth i f l) j = option_map (fun x => if Nat.eqb i j then f x else x) (nth_error l j).
Proof.
  induction l as [|x l IH]; intros [|i] [|j]; cbn [update_nth nth_error option_map Nat.eqb]; try reflexivity.
  - destruct (nth_error l j); reflexivity.
  - apply IH.
Qed.

Lemma update_nth_length {A} (f : A -> A) l : forall i, length (update_nth i f l) = length l.
Proof. induction l as [|x l IH]; intros [|i]; cbn; try reflexivity. rewrite IH. reflexivity. Qed.

Definition target_b (conn : Z) (p : profile) (w : place) : bool :=
  match pf_purpose p, w with
  | PMax, AtStation => true
  | PTxDefault, AtDefault i => if conn =? 0 then 0 <? i else i =? conn
  | PTx, AtTx i => i =? conn
  | _, _ => false
  end.

Lemma add_map_at h p conn w :
  0 <= conn ->
  map_at (add_by_purpose h p conn) w =
  option_map (fun m => if target_b conn p w then mset (pf_stack p) p m else m) (map_at h w).
Proof.
  intros Hc. unfold add_by_purpose, target_b.
  destruct (pf_purpose p).
  - destruct w; cbn; [reflexivity| |]; unfold connector_at; cbn; destruct (conn0 <? 0); try reflexivity;
      destruct (nth_error (h_conns h) (Z.to_nat conn0)); reflexivity.
  - unfold add_tx_default_profile. destruct (Z.eqb_spec conn 0) as [->|Hne].
    + destruct w; cbn [map_at].
      * destruct (h_conns h); reflexivity.
      * unfold connector_at. destruct (Z.ltb_spec conn 0); [reflexivity|].
        destruct (h_conns h) as [|c0 r] eqn:E; cbn [set_db h_conns].
        -- rewrite E. destruct (Z.to_nat conn); reflexivity.
        -- cbn [set_conns h_conns]. destruct (Z.to_nat conn) as [|n] eqn:En; cbn [nth_error].
           ++ destruct (Z.ltb_spec 0 conn); [lia|]. reflexivity.
           ++ destruct (Z.ltb_spec 0 conn); [|lia]. rewrite nth_error_map.
              destruct (nth_error r n); reflexivity.
      * unfold connector_at. destruct (Z.ltb_spec conn 0); [reflexivity|].
        destruct (h_conns h) as [|c0 r] eqn:E; cbn [set_db h_conns].
        -- rewrite E. destruct (Z.to_nat conn); reflexivity.
        -- cbn [set_conns h_conns]. destruct (Z.to_nat conn) as [|n] eqn:En; cbn [nth_error].
           ++ reflexivity.
           ++ rewrite nth_error_map. destruct (nth_error r n); reflexivity.
    + destruct w; cbn [map_at set_db set_conns h_max h_conns].
      * reflexivity.
      * unfold connector_at. destruct (Z.ltb_spec conn0 0); [reflexivity|]. cbn [set_db set_conns h_conns].
        rewrite nth_error_update. destruct (nth_error (h_conns h) (Z.to_nat conn0)); [|reflexivity]. cbn [option_map].
        destruct (Nat.eqb_spec (Z.to_nat conn) (Z.to_nat conn0)), (Z.eqb_spec conn0 conn); try lia; reflexivity.
      * unfold connector_at. destruct (Z.ltb_spec conn0 0); [reflexivity|]. cbn [set_db set_conns h_conns].
        rewrite nth_error_update. destruct (nth_error (h_conns h) (Z.to_nat conn0)); [|reflexivity]. cbn [option_map].
        destruct (Nat.eqb_spec (Z.to_nat conn) (Z.to_nat conn0)); reflexivity.
  - unfold add_tx_profile. destruct w; cbn [map_at set_db set_conns h_max h_conns].
    + reflexivity.
    + unfold connector_at. destruct (Z.ltb_spec conn0 0); [reflexivity|]. cbn [set_db set_conns h_conns].
      rewrite nth_error_update. destruct (nth_error (h_conns h) (Z.to_nat conn0)); [|reflexivity]. cbn [option_map].
      destruct (Nat.eqb_spec (Z.to_nat conn) (Z.to_nat conn0)); reflexivity.
    + unfold connector_at. destruct (Z.ltb_spec conn0 0); [reflexivity|]. cbn [set_db set_conns h_conns].
      rewrite nth_error_update. destruct (nth_error (h_conns h) (Z.to_nat conn0)); [|reflexivity]. cbn [option_map].
      destruct (Nat.eqb_spec (Z.to_nat conn) (Z.to_nat conn0)), (Z.eqb_spec conn0 conn); try lia; reflexivity.
Qed.

Lemma add_transactions h p conn : transactions (add_by_purpose h p conn) = transactions h.
Proof.
  unfold add_by_purpose, transactions. destruct (pf_purpose p); cbn.
  - reflexivity.
  - unfold add_tx_default_profile. destruct (conn =? 0); cbn.
    + destruct (h_conns h) as [|c r] eqn:E; cbn; [rewrite E; reflexivity|]. f_equal. rewrite map_map. reflexivity.
    + generalize (Z.to_nat conn) as i. induction (h_conns h) as [|c r IH]; intros [|i]; cbn; try reflexivity.
      f_equal. apply IH.
  - generalize (Z.to_nat conn) as i. induction (h_conns h) as [|c r IH]; intros [|i]; cbn; try reflexivity.
    f_equal. apply IH.
Qed.

Lemma conns_len_tx h h' : transactions h' = transactions h -> length (h_conns h') = length (h_conns h).
Proof. unfold transactions. intros E. rewrite <- (map_length c_tx (h_conns h')), E. apply map_length. Qed.

Lemma add_holds h p conn w q :
  handler_ok h -> 0 <= conn ->
  (holds (add_by_purpose h p conn) w q <->
   (target_b conn p w = true /\ map_at h w <> None /\ q = p) \/
   (holds h w q /\ ~ (target_b conn p w = true /\ pf_stack q = pf_stack p))).
Proof.
  intros Hok Hc. apply handler_ok_iff in Hok as (H1 & _). rewrite !holds_map, add_map_at by exact Hc.
  destruct (map_at h w) as [m|] eqn:Em; cbn [option_map].
  2:{ split; [intros (m & E & _); discriminate|]. intros [(_ & K & _)|((m & E & _) & _)]; [congruence|discriminate]. }
  assert (K : forall (Q : pmap -> Prop) (m0 : pmap), (exists m1, Some m0 = Some m1 /\ Q m1) <-> Q m0).
  { intros Q m0. split; [intros (m1 & E & H); injection E as <-; exact H|intros H; exists m0; auto]. }
  rewrite (K (fun m1 => In q (map snd m1))), (K (fun m1 => In q (map snd m1))).
  destruct (target_b conn p w).
  - rewrite (in_map_mset _ p m q (H1 w m Em)). intuition congruence.
  - intuition congruence.
Qed.

(** ** the invariant is preserved *)

Lemma filter_all_ok h h' (sel : place -> Z * profile -> bool) :
  handler_ok h ->
  (forall w, map_at h' w = option_map (filter (sel w)) (map_at h w)) ->
  transactions h' = transactions h -> handler_ok h'.
Proof.
  intros Hok Hm Ht. apply handler_ok_iff in Hok as (H1 & H2 & H3 & H4). apply handler_ok_iff.
  split; [|split; [|split]].
  - intros w m Em. rewrite Hm in Em. destruct (map_at h w) as [m0|] eqn:E0; [|discriminate].
    injection Em as <-. apply filter_map_ok. apply H1. exact E0.
  - intros E. apply conns_len_tx in Ht. rewrite E in Ht. destruct (h_conns h); [congruence|discriminate].
  - intros p Hp. apply holds_map in Hp as (m & Em & Hp). rewrite Hm in Em.
    destruct (map_at h (AtDefault 0)) as [m0|] eqn:E0; [|discriminate]. injection Em as <-.
    apply in_map_iff in Hp as (kp & <- & Hin). apply filter_In in Hin as [Hin _].
    apply (H3 (snd kp)). apply holds_map. exists m0. split; [exact E0|apply in_map; exact Hin].
  - intros p Hp. apply holds_map in Hp as (m & Em & Hp). rewrite Hm in Em.
    destruct (map_at h (AtTx 0)) as [m0|] eqn:E0; [|discriminate]. injection Em as <-.
    apply in_map_iff in Hp as (kp & <- & Hin). apply filter_In in Hin as [Hin _].
    apply (H4 (snd kp)). apply holds_map. exists m0. split; [exact E0|apply in_map; exact Hin].
Qed.

Lemma clear_all_ok h f ido : handler_ok h -> handler_ok (fst (clear_all_profiles_with_filter h f ido)).
Proof.
  intros Hok. pose proof (clear_all_spec h f ido) as S.
  destruct (clear_all_profiles_with_filter h f ido) as [h' b]. destruct S as (S1 & S2 & _).
  exact (filter_all_ok h h' _ Hok S1 S2).
Qed.

Lemma add_ok h p conn :
  handler_ok h -> 0 <= conn ->
  (pf_purpose p = PMax -> pf_kind p <> Relative) -> (pf_purpose p = PTx -> conn <> 0) ->
  handler_ok (add_by_purpose h p conn).
Proof.
  intros Hok Hc Hk Hx. pose proof Hok as Hok'. apply handler_ok_iff in Hok as (H1 & H2 & H3 & H4). apply handler_ok_iff.
  split; [|split; [|split]].
  - intros w m Em. rewrite add_map_at in Em by exact Hc. destruct (map_at h w) as [m0|] eqn:E0; [|discriminate].
    injection Em as <-. destruct (target_b conn p w) eqn:Et; [|exact (H1 w m0 E0)].
    apply mset_map_ok; [|exact (H1 w m0 E0)].
    unfold target_b in Et. destruct (pf_purpose p) eqn:Ep, w; try discriminate; cbn; auto.
  - intros E. pose proof (conns_len_tx _ _ (add_transactions h p conn)) as L. rewrite E in L.
    destruct (h_conns h); [congruence|discriminate].
  - intros q Hq. apply (add_holds h p conn _ q Hok' Hc) in Hq as [(Et & _ & _)|[Hq _]]; [|exact (H3 q Hq)].
    unfold target_b in Et. destruct (pf_purpose p); try discriminate.
    destruct (Z.eqb_spec conn 0); [discriminate|]. apply Z.eqb_eq in Et. congruence.
  - intros q Hq. apply (add_holds h p conn _ q Hok' Hc) in Hq as [(Et & _ & _)|[Hq _]]; [|exact (H4 q Hq)].
    unfold target_b in Et. destruct (pf_purpose p) eqn:Ep; try discriminate. specialize (Hx eq_refl). apply Z.eqb_eq in Et. congruence.
Qed.

(* what validation guarantees, without any hypothesis on the configuration *)
Lemma validate_basic g h now p conn ig p' :
  validate_profile g h now p conn ig = Some p' ->
  0 <= conn /\ pf_purpose p' = pf_purpose p /\ pf_id p' = pf_id p /\ pf_stack p' = pf_stack p /\
  (pf_purpose p' = PMax -> pf_kind p' <> Relative) /\ (pf_purpose p' = PTx -> conn <> 0).
Proof.
  unfold validate_profile. cbn zeta.
  destruct (_ || _ || _ || _) eqn:E0; [discriminate|].
  assert (Hc : 0 <= conn).
  { rewrite !orb_false_iff in E0. destruct E0 as (((_ & E0) & _) & _). apply Z.ltb_ge in E0. exact E0. }
  clear E0.
  set (r1 := if kind_eqb (pf_kind p) Absolute && _ then _ else _).
  assert (R1 : forall q, r1 = Some q -> pf_purpose q = pf_purpose p /\ pf_id q = pf_id p /\ pf_stack q = pf_stack p /\ pf_kind q = pf_kind p).
  { unfold r1. intros q. destruct (kind_eqb (pf_kind p) Absolute && _).
    - destruct (g_no_start g); [|discriminate]. intros E; injection E as <-. cbn. auto.
    - intros E; injection E as <-. auto. }
  destruct r1 as [q|]; [|discriminate]. destruct (R1 q eq_refl) as (P1 & P2 & P3 & P4). clear R1.
  destruct (g_max_installed g <=? number_installed h); [discriminate|].
  destruct (validate_schedule (pf_sched q) (g_max_periods g) (g_units g)); cbn [negb]; [|discriminate].
  set (r2 := match pf_kind q with Recurring => _ | _ => _ end).
  assert (R2 : forall q', r2 = Some q' -> pf_purpose q' = pf_purpose p /\ pf_id q' = pf_id p /\ pf_stack q' = pf_stack p /\ pf_kind q' = pf_kind p).
  { unfold r2. intros q'. destruct (pf_kind q) eqn:Ek.
    - intros E; injection E as <-. rewrite Ek. auto.
    - destruct (pf_recur q); [|discriminate].
      match goal with |- match ?r with _ => _ end = _ -> _ => set (r3 := r) end.
      assert (R3 : forall q'', r3 = Some q'' -> pf_purpose q'' = pf_purpose q /\ pf_id q'' = pf_id q /\ pf_stack q'' = pf_stack q /\ pf_kind q'' = pf_kind q).
      { unfold r3. intros q''. destruct (sc_start (pf_sched q)).
        - intros E; injection E as <-. auto.
        - destruct (g_no_start g); [|discriminate]. intros E; injection E as <-. cbn. auto. }
      destruct r3 as [q3|]; [|discriminate]. destruct (R3 q3 eq_refl) as (E1 & E2 & E3 & E4).
      destruct (sc_duration (pf_sched q3)) as [d|].
      + intros E; injection E as <-. destruct (_ <? d); cbn; repeat split; congruence.
      + intros E; injection E as <-. repeat split; congruence.
    - intros E; injection E as <-. rewrite Ek. auto. }
  destruct r2 as [q2|]; [|discriminate]. destruct (R2 q2 eq_refl) as (Q1 & Q2 & Q3 & Q4). clear R2.
  fold (last_check h conn ig q2). intros HL.
  change (last_check h conn ig q2 = Some p') in HL.
  apply last_check_iff in HL as [-> HL]. split; [exact Hc|]. repeat split; try assumption.
  - intros E. rewrite E in HL. tauto.
  - intros E. rewrite E in HL. tauto.
Qed.
