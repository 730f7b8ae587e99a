(** The charging profile table and restarts. *)

From Coq Require Import ZArith List Bool Permutation Sorted Lia.
From Coq Require Import ZifyBool.
From Verif Require Import Prof16Model Prof16Spec Sc16Model Sc16Spec Sc16Proofs2 Sc16Proofs3 Sc16Proofs4.
Import ListNotations.
Open Scope Z_scope.

Definition rid (r : row) : Z := pf_id (snd r).

(** ** the table only shrinks when clearing *)

Definition shrunk (d d' : list row) : Prop := exists f, d' = filter f d.

Lemma shrunk_refl d : shrunk d d.
Proof. exists (fun _ => true). induction d; cbn; congruence. Qed.

Lemma filter_filter {A} (f g : A -> bool) l : filter f (filter g l) = filter (fun x => g x && f x) l.
Proof. induction l as [|x l IH]; cbn; [reflexivity|]. destruct (g x); cbn; [destruct (f x)|]; rewrite IH; reflexivity. Qed.

Lemma shrunk_trans a b c : shrunk a b -> shrunk b c -> shrunk a c.
Proof. intros (f & ->) (g & ->). rewrite filter_filter. eexists; reflexivity. Qed.

Lemma shrunk_delete i d : shrunk d (db_delete i d).
Proof. eexists; reflexivity. Qed.

Lemma shrunk_in d d' r : shrunk d d' -> In r d' -> In r d.
Proof. intros (f & ->) H. apply filter_In in H. tauto. Qed.

Lemma shrunk_nodup d d' : shrunk d d' -> NoDup (map rid d) -> NoDup (map rid d').
Proof.
  intros (f & ->) H. induction d as [|r d IH]; cbn in *; [exact H|]. inversion H; subst.
  destruct (f r); cbn; [|auto]. constructor; [|auto]. intros K. apply H2.
  apply in_map_iff in K as (x & <- & Hx). apply in_map. apply filter_In in Hx. tauto.
Qed.

Lemma clear_profiles_shrunk f conn ido m : forall d, shrunk d (snd (fst (clear_profiles m f conn ido d))).
Proof.
  induction m as [|[k p] m IH]; intros d; cbn [clear_profiles]; [apply shrunk_refl|].
  destruct (match f_id f with Some i => pf_id p =? i | None => false end);
    [|destruct (negb ido && opt_matches Z.eqb (f_conn f) conn && opt_matches Z.eqb (f_stack f) k &&
                opt_matches purpose_eqb (f_purpose f) (pf_purpose p))].
  - specialize (IH (db_delete (pf_id p) d)). destruct (clear_profiles m f conn ido (db_delete (pf_id p) d)) as [[? ?] ?].
    cbn in *. eapply shrunk_trans; [apply shrunk_delete|exact IH].
  - specialize (IH (db_delete (pf_id p) d)). destruct (clear_profiles m f conn ido (db_delete (pf_id p) d)) as [[? ?] ?].
    cbn in *. eapply shrunk_trans; [apply shrunk_delete|exact IH].
  - specialize (IH d). destruct (clear_profiles m f conn ido d) as [[? ?] ?]. exact IH.
Qed.

Lemma clear_conns_shrunk f ido cs : forall i d, shrunk d (snd (fst (clear_conns cs i f ido d))).
Proof.
  induction cs as [|c cs IH]; intros i d; cbn [clear_conns]; [apply shrunk_refl|].
  pose proof (clear_profiles_shrunk f i ido (c_txdefault c) d) as S1.
  destruct (clear_profiles (c_txdefault c) f i ido d) as [[? d1] ?].
  pose proof (clear_profiles_shrunk f i ido (c_txprofiles c) d1) as S2.
  destruct (clear_profiles (c_txprofiles c) f i ido d1) as [[? d2] ?].
  specialize (IH (i + 1) d2). destruct (clear_conns cs (i + 1) f ido d2) as [[? d3] ?]. cbn in *.
  eapply shrunk_trans; [exact S1|]. eapply shrunk_trans; [exact S2|exact IH].
Qed.

Lemma clear_all_shrunk h f ido : shrunk (h_db h) (h_db (fst (clear_all_profiles_with_filter h f ido))).
Proof.
  unfold clear_all_profiles_with_filter.
  pose proof (clear_profiles_shrunk f 0 ido (h_max h) (h_db h)) as S1.
  destruct (clear_profiles (h_max h) f 0 ido (h_db h)) as [[? d1] ?].
  pose proof (clear_conns_shrunk f ido (h_conns h) 0 d1) as S2.
  destruct (clear_conns (h_conns h) 0 f ido d1) as [[? d2] ?]. cbn in *.
  eapply shrunk_trans; eassumption.
Qed.

Lemma expire_map_shrunk now m : forall d, shrunk d (snd (clear_expired_map now m d)).
Proof.
  induction m as [|[k p] m IH]; intros d; cbn [clear_expired_map]; [apply shrunk_refl|].
  destruct (expired now p).
  - eapply shrunk_trans; [apply shrunk_delete|apply IH].
  - specialize (IH d). destruct (clear_expired_map now m d). exact IH.
Qed.

Lemma expire_conns_shrunk now cs : forall d, shrunk d (snd (clear_expired_conns now cs d)).
Proof.
  induction cs as [|c cs IH]; intros d; cbn [clear_expired_conns]; [apply shrunk_refl|].
  pose proof (expire_map_shrunk now (c_txdefault c) d) as S1.
  destruct (clear_expired_map now (c_txdefault c) d) as [? d1].
  pose proof (expire_map_shrunk now (c_txprofiles c) d1) as S2.
  destruct (clear_expired_map now (c_txprofiles c) d1) as [? d2].
  specialize (IH d2). destruct (clear_expired_conns now cs d2) as [? d3]. cbn in *.
  eapply shrunk_trans; [exact S1|]. eapply shrunk_trans; [exact S2|exact IH].
Qed.

Lemma expire_shrunk now h : shrunk (h_db h) (h_db (clear_expired_profiles now h)).
Proof.
  unfold clear_expired_profiles.
  pose proof (expire_map_shrunk now (h_max h) (h_db h)) as S1.
  destruct (clear_expired_map now (h_max h) (h_db h)) as [? d1].
  pose proof (expire_conns_shrunk now (h_conns h) d1) as S2.
  destruct (clear_expired_conns now (h_conns h) d1) as [? d2]. cbn in *.
  eapply shrunk_trans; eassumption.
Qed.

(** ** inserting *)

Definition same_slot (p q : profile) : Prop := pf_stack p = pf_stack q /\ pf_purpose p = pf_purpose q.

Lemma in_db_insert conn p d r :
  In r (db_insert conn p d) <-> r = (conn, p) \/ (In r d /\ rid r <> pf_id p /\ ~ same_slot (snd r) p).
Proof.
  unfold db_insert. rewrite in_app_iff, in_db_delete, filter_In. unfold rid, same_slot. cbn [In].
  assert (E : negb ((pf_stack (snd r) =? pf_stack p) && purpose_eqb (pf_purpose (snd r)) (pf_purpose p)) = true <->
              ~ (pf_stack (snd r) = pf_stack p /\ pf_purpose (snd r) = pf_purpose p)).
  { rewrite negb_true_iff. rewrite <- purpose_eqb_iff, <- Z.eqb_eq.
    destruct (pf_stack (snd r) =? pf_stack p), (purpose_eqb (pf_purpose (snd r)) (pf_purpose p)); cbn; intuition congruence. }
  rewrite E. split; [intros [H|[H|[]]]; [right; tauto|left; congruence]|].
  intros [->|H]; [right; left; reflexivity|left; tauto].
Qed.

Lemma nodup_insert conn p d : NoDup (map rid d) -> NoDup (map rid (db_insert conn p d)).
Proof.
  intros H. unfold db_insert. rewrite map_app. cbn [map].
  set (d' := db_delete (pf_id p) _). 
  assert (H' : NoDup (map rid d')).
  { apply (shrunk_nodup d); [|exact H]. unfold d'. eapply shrunk_trans; [eexists; reflexivity|apply shrunk_delete]. }
  apply Permutation_NoDup with (l := rid (conn, p) :: map rid d').
  - apply Permutation_cons_append.
  - constructor; [|exact H']. intros K. apply in_map_iff in K as (r & E & Hin). unfold d' in Hin.
    apply in_db_delete in Hin as [_ Hn]. apply Hn. exact E.
Qed.

Lemma add_db h p conn : h_db (add_by_purpose h p conn) =
  db_insert (match pf_purpose p with PMax => 0 | _ => conn end) p (h_db h).
Proof.
  unfold add_by_purpose. destruct (pf_purpose p); cbn; try reflexivity.
  unfold add_tx_default_profile. destruct (conn =? 0); cbn; [|reflexivity]. destruct (h_conns h); reflexivity.
Qed.

(** ** what is known of a stored row *)

Definition static_ok (g : cfg) (len : Z) (conn : Z) (q : profile) : Prop :=
  (0 <= conn < len /\ int32 conn) /\ 0 <= pf_stack q <= g_max_stack g /\
  Z.of_nat (length (sc_periods (pf_sched q))) <= g_max_periods g /\
  In (sc_unit (pf_sched q)) (g_units g) /\
  (forall c, In c (sc_periods (pf_sched q)) -> good_period c) /\
  (pf_kind q <> Relative -> sc_start (pf_sched q) <> None) /\
  (pf_kind q = Recurring -> pf_recur q <> None) /\
  (forall now, completed now q = q) /\
  (pf_purpose q <> PTx -> In (pf_purpose q) (g_purposes g)) /\
  match pf_purpose q with
  | PMax => conn = 0 /\ pf_kind q <> Relative
  | PTxDefault => True
  | PTx => conn <> 0
  end.

Definition db_ok (g : cfg) (h : handler) : Prop :=
  NoDup (map rid (h_db h)) /\
  (forall r1 r2, In r1 (h_db h) -> In r2 (h_db h) -> same_slot (snd r1) (snd r2) -> r1 = r2) /\
  (forall conn q, In (conn, q) (h_db h) -> static_ok g (Z.of_nat (length (h_conns h))) conn q) /\
  stored_in_force h.

Lemma nodup_id d r1 r2 : NoDup (map rid d) -> In r1 d -> In r2 d -> rid r1 = rid r2 -> r1 = r2.
Proof.
  induction d as [|r d IH]; cbn; [intros _ []|]. intros H. inversion H as [|? ? N ND]; subst.
  intros [<-|H1] [<-|H2] E; try reflexivity.
  - exfalso. apply N. rewrite E. apply in_map. assumption.
  - exfalso. apply N. rewrite <- E. apply in_map. assumption.
  - apply IH; assumption.
Qed.

Lemma completed_idem now p : forall now', completed now' (completed now p) = completed now p.
Proof.
  intros now'. destruct p as [id st pu k [un pe du ss] tx rc fr to]. unfold completed; cbn.
  destruct k, rc as [[|]|], du as [d|], ss; cbn; try reflexivity;
    rewrite <- Z.min_assoc, Z.min_id; reflexivity.
Qed.

Lemma in_purposes pu l : existsb (purpose_eqb pu) l = true <-> In pu l.
Proof.
  rewrite existsb_exists. split.
  - intros (x & Hx & E). apply purpose_eqb_iff in E as ->. exact Hx.
  - intros H. exists pu. split; [exact H|]. apply purpose_eqb_iff. reflexivity.
Qed.

Section Cfg.
  Variable g : cfg.
  Hypothesis bounds : 0 <= g_max_periods g <= 2147483647.

  Lemma accepted_static h now p conn ig q :
    -2147483648 <= conn <= 2147483647 ->
    validate_profile g h now p conn ig = Some q ->
    (pf_purpose p <> PTx -> In (pf_purpose p) (g_purposes g)) ->
    static_ok g (Z.of_nat (length (h_conns h))) conn q.
  Proof.
    intros Hc Hv Hp. apply validate_iff in Hv; try assumption. destruct Hv as (Ha & ->).
    destruct Ha as (A1 & A2 & A3 & A4 & A5 & A6 & A7 & A8 & A9). unfold static_ok.
    split; [split; [exact A1|exact Hc]|]. split; [exact A2|]. split; [exact A4|]. split; [exact A5|]. split; [exact A6|].
    split. { cbn. destruct (pf_kind p), (sc_start (pf_sched p)); try discriminate; congruence. }
    split; [exact A8|]. split; [apply completed_idem|]. split; [exact Hp|].
    cbn. destruct (pf_purpose p); tauto.
  Qed.

  Lemma static_accepted h now conn q :
    static_ok g (Z.of_nat (length (h_conns h))) conn q ->
    number_installed h < g_max_installed g ->
    pf_purpose q <> PTx ->
    validate_profile g h now q conn false = Some q.
  Proof.
    intros ((A1 & Hc) & A2 & A3 & A4 & A5 & A6 & A7 & A8 & A9 & A10) Hn Hp.
    apply validate_iff; try assumption. split; [|symmetry; apply A8].
    unfold acceptable. rewrite <- number_installed_spec.
    repeat match goal with |- _ /\ _ => split end; try assumption; try lia.
    - intros H1 H2. exfalso. exact (A6 H1 H2).
    - destruct (pf_purpose q); tauto.
  Qed.

  (** *** preservation *)

  Lemma removal_db h h' (gone : place -> profile -> Prop) :
    db_ok g h -> length (h_conns h') = length (h_conns h) ->
    shrunk (h_db h) (h_db h') ->
    (forall w q, holds h w q -> holds h' w q \/ gone w q) ->
    (forall r, In r (h_db h') -> forall w p, holds h w p -> gone w p -> rid r <> pf_id p) ->
    db_ok g h'.
  Proof.
    intros (D1 & D2 & D3 & D4) Hl Hs Hh Hr.
    split; [exact (shrunk_nodup _ _ Hs D1)|]. split.
    { intros r1 r2 H1 H2. apply D2; eapply shrunk_in; eassumption. }
    split. { intros conn q H. rewrite Hl. apply D3. eapply shrunk_in; eassumption. }
    intros conn q w H Ht. apply (target_conns h h') in Ht; [|exact Hl].
    assert (K : holds h w q) by (apply (D4 conn); [eapply shrunk_in; eassumption|exact Ht]).
    destruct (Hh w q K) as [R|R]; [exact R|]. exfalso. exact (Hr _ H w q K R eq_refl).
  Qed.

  Lemma clear_all_db_ok h f ido :
    handler_ok h -> ido = (match f_id f with Some _ => true | None => false end) ->
    db_ok g h -> db_ok g (fst (clear_all_profiles_with_filter h f ido)).
  Proof.
    intros Hok Ei Hd. apply (removal_db h _ (asked f) Hd).
    - apply conns_len_tx. apply clear_all_tx.
    - apply clear_all_shrunk.
    - intros w q Hq. rewrite clear_all_holds by assumption.
      assert (Dec : asked f w q \/ ~ asked f w q).
      { unfold asked. destruct (f_id f) as [i|]; [destruct (Z.eq_dec (pf_id q) i); tauto|].
        assert (O1 : forall (o : option Z) x, (forall c, o = Some c -> x = c) \/ ~ (forall c, o = Some c -> x = c)).
        { intros [y|] x; [destruct (Z.eq_dec x y)|].
          - left. intros; congruence.
          - right. intros K. apply n. apply K. reflexivity.
          - left; discriminate. }
        assert (O2 : forall (o : option purpose) x, (forall c, o = Some c -> x = c) \/ ~ (forall c, o = Some c -> x = c)).
        { intros [y|] x; [|left; discriminate]. destruct (purpose_eqb x y) eqn:E.
          - apply purpose_eqb_iff in E. left; congruence.
          - right. intros K. specialize (K y eq_refl). apply purpose_eqb_iff in K. congruence. }
        destruct (O1 (f_conn f) (connector_of w)), (O1 (f_stack f) (pf_stack q)), (O2 (f_purpose f) (pf_purpose q)); tauto. }
      tauto.
    - intros r Hr w p Hp Ha. apply clear_all_db in Hr; try assumption. destruct Hr as [_ Hr]. exact (Hr w p Hp Ha).
  Qed.

  Lemma place_slot h conn p w q :
    handler_ok h -> holds h w q -> target_b conn p w = true -> pf_purpose q = pf_purpose p.
  Proof.
    intros Hok Hh Ht. pose proof (holds_purpose h w q Hok Hh) as Pl. unfold target_b in Ht.
    destruct (pf_purpose p), w; cbn in Pl; try discriminate; tauto.
  Qed.

  Lemma add_db_ok h p conn :
    handler_ok h -> db_ok g h ->
    static_ok g (Z.of_nat (length (h_conns h))) conn p ->
    db_ok g (add_by_purpose h p conn).
  Proof.
    intros Hok (D1 & D2 & D3 & D4) Hs. pose proof Hs as ((A1 & A1') & _ & _ & _ & _ & _ & _ & _ & _ & A10).
    assert (Ec : match pf_purpose p with PMax => 0 | _ => conn end = conn).
    { destruct (pf_purpose p); try reflexivity. symmetry; apply A10. }
    assert (El : length (h_conns (add_by_purpose h p conn)) = length (h_conns h))
      by (apply conns_len_tx; apply add_transactions).
    unfold db_ok. rewrite add_db, Ec. split; [apply nodup_insert; exact D1|]. split; [|split].
    - intros r1 r2 H1 H2 Hsl. apply in_db_insert in H1, H2.
      destruct H1 as [->|(H1 & N1 & S1)], H2 as [->|(H2 & N2 & S2)]; try reflexivity.
      + exfalso. apply S2. destruct Hsl. split; symmetry; assumption.
      + exfalso. apply S1. exact Hsl.
      + apply D2; assumption.
    - intros c q H. rewrite El. apply in_db_insert in H as [H|(H & _)]; [injection H as -> ->; exact Hs|].
      apply D3. exact H.
    - intros c q w H Ht. rewrite add_db, Ec in H. apply (target_conns h) in Ht; [|exact El].
      apply add_holds; [exact Hok|lia|].
      apply in_db_insert in H as [H|(H & N & Sl)].
      + injection H as -> ->. left. apply target_iff in Ht; [|exact A1]. tauto.
      + right. assert (Hq : holds h w q) by (apply (D4 c); assumption). split; [exact Hq|].
        intros (Tb & Es). apply Sl. split; [exact Es|]. exact (place_slot h conn p w q Hok Hq Tb).
  Qed.

  (** *** loading *)

  Definition loading (h : handler) (ps : list profile) : Prop :=
    handler_ok h /\ NoDup (map rid (h_db h)) /\ NoDup (map pf_id ps) /\
    (forall r1 r2, In r1 (h_db h) -> In r2 (h_db h) -> same_slot (snd r1) (snd r2) -> r1 = r2) /\
    (forall p, In p ps -> exists conn, In (conn, p) (h_db h)) /\
    (forall conn q, In (conn, q) (h_db h) ->
       In q ps \/ (static_ok g (Z.of_nat (length (h_conns h))) conn q /\
                   forall w, target h conn q w -> holds h w q)) /\
    (forall w q, holds h w q ->
       ~ In (pf_id q) (map pf_id ps) /\ exists conn, In (conn, q) (h_db h) /\ target h conn q w) /\
    (forall conn q, In (conn, q) (h_db h) -> int32 conn).

  Lemma find_row d conn p :
    NoDup (map rid d) -> In (conn, p) d ->
    find (fun x => pf_id (snd x) =? pf_id p) d = Some (conn, p).
  Proof.
    induction d as [|r d IH]; cbn; [intros _ []|]. intros H [->|Hin]; inversion H; subst.
    - cbn. rewrite Z.eqb_refl. reflexivity.
    - destruct (Z.eqb_spec (pf_id (snd r)) (pf_id p)) as [E|_]; [|apply IH; assumption].
      exfalso. apply H2. unfold rid at 1. rewrite E. change (pf_id p) with (rid (conn, p)). apply in_map. exact Hin.
  Qed.

  Lemma ids_unique (l : list profile) a b :
    NoDup (map pf_id l) -> In a l -> In b l -> pf_id a = pf_id b -> a = b.
  Proof.
    induction l as [|x l IH]; cbn; [intros _ []|]. intros H. inversion H as [|? ? N ND]; subst.
    intros [<-|H1] [<-|H2] E; try reflexivity.
    - exfalso. apply N. rewrite E. apply in_map. assumption.
    - exfalso. apply N. rewrite <- E. apply in_map. assumption.
    - apply IH; assumption.
  Qed.

  Lemma loading_drop h p ps conn :
    loading h (p :: ps) -> In (conn, p) (h_db h) ->
    loading (set_db h (db_delete (pf_id p) (h_db h))) ps.
  Proof.
    intros (L1 & L2 & L3 & L4 & L5 & L6 & L7 & L8) Hrow. cbn [map] in L3. inversion L3 as [|? ? N3 L3']; subst.
    assert (Hm : forall w, map_at (set_db h (db_delete (pf_id p) (h_db h))) w = map_at h w)
      by (intros [| |]; reflexivity).
    split; [apply (same_maps_ok h); [exact Hm|reflexivity|exact L1]|].
    cbn [set_db h_db h_conns].
    split; [apply (shrunk_nodup (h_db h)); [apply shrunk_delete|exact L2]|].
    split; [exact L3'|]. split; [|split; [|split; [|split]]].
    - intros r1 r2 H1 H2. apply in_db_delete in H1, H2. apply L4; tauto.
    - intros q Hq. destruct (L5 q (or_intror Hq)) as (c & Hc). exists c. apply in_db_delete. split; [exact Hc|].
      cbn. intros E. apply N3. rewrite <- E. apply in_map. exact Hq.
    - intros c q H. apply in_db_delete in H as [H Hn]. cbn in Hn.
      destruct (L6 c q H) as [[E|Hin]|[K1 K2]]; [congruence|left; exact Hin|right].
      split; [exact K1|]. intros w Ht. apply (same_maps_holds h _ w q Hm). apply K2. exact Ht.
    - intros w q Hq. apply (same_maps_holds h _ w q Hm) in Hq. destruct (L7 w q Hq) as (K1 & c & K2 & K3).
      split; [intros K; apply K1; right; exact K|]. exists c. split; [|exact K3].
      apply in_db_delete. split; [exact K2|]. cbn. intros E. apply K1. left. symmetry; exact E.
    - intros c q H. apply in_db_delete in H as [H _]. exact (L8 c q H).
  Qed.

  Lemma loading_add h p p' ps conn :
    loading h (p :: ps) -> In (conn, p) (h_db h) ->
    static_ok g (Z.of_nat (length (h_conns h))) conn p' ->
    pf_id p' = pf_id p -> pf_stack p' = pf_stack p -> pf_purpose p' = pf_purpose p ->
    loading (add_by_purpose h p' conn) ps.
  Proof.
    intros (L1 & L2 & L3 & L4 & L5 & L6 & L7 & L8) Hrow Hs Ei Est Epu.
    cbn [map] in L3. inversion L3 as [|? ? N3 L3']; subst.
    pose proof Hs as ((A1 & A1') & _ & _ & _ & _ & _ & _ & _ & _ & A10).
    assert (Ec : match pf_purpose p' with PMax => 0 | _ => conn end = conn).
    { destruct (pf_purpose p'); try reflexivity. symmetry; apply A10. }
    assert (El : length (h_conns (add_by_purpose h p' conn)) = length (h_conns h))
      by (apply conns_len_tx; apply add_transactions).
    assert (Keep : forall r, In r (h_db h) -> rid r <> pf_id p -> In r (db_insert conn p' (h_db h))).
    { intros r Hr Hn. apply in_db_insert. right. split; [exact Hr|]. split; [rewrite Ei; exact Hn|].
      intros Sl. apply Hn. change (pf_id p) with (rid (conn, p)). f_equal. apply L4; [exact Hr|exact Hrow|].
      cbn. destruct Sl. split; congruence. }
    assert (Old : forall r, In r (db_insert conn p' (h_db h)) -> r = (conn, p') \/ (In r (h_db h) /\ rid r <> pf_id p)).
    { intros r Hr. apply in_db_insert in Hr as [Hr|(H1 & H2 & _)]; [left; exact Hr|right]. rewrite Ei in H2. auto. }
    assert (NotSlot : forall w q, holds h w q -> ~ (target_b conn p' w = true /\ pf_stack q = pf_stack p')).
    { intros w q Hq (Tb & Es). destruct (L7 w q Hq) as (K1 & c & K2 & K3). apply K1. left. cbn.
      pose proof (place_slot h conn p' w q L1 Hq Tb) as Ep.
      assert (E : (c, q) = (conn, p)).
      { apply L4; [exact K2|exact Hrow|]. cbn. split; congruence. }
      injection E as _ ->. reflexivity. }
    split; [apply add_ok; [exact L1|lia| |]|].
    { intros E. rewrite E in A10. tauto. } { intros E. rewrite E in A10. tauto. }
    rewrite add_db, Ec.
    split; [apply nodup_insert; exact L2|]. split; [exact L3'|]. split; [|split; [|split; [|split]]].
    - intros r1 r2 H1 H2 Sl. apply Old in H1, H2.
      assert (X : forall r, In r (h_db h) -> rid r <> pf_id p -> ~ same_slot (snd r) p').
      { intros r Hr Hn Sl'. apply Hn. change (pf_id p) with (rid (conn, p)). f_equal.
        apply L4; [exact Hr|exact Hrow|]. cbn. destruct Sl'. split; congruence. }
      destruct H1 as [->|(H1 & N1)], H2 as [->|(H2 & N2)]; try reflexivity.
      + exfalso. apply (X _ H2 N2). destruct Sl. split; symmetry; assumption.
      + exfalso. exact (X _ H1 N1 Sl).
      + apply L4; assumption.
    - intros q Hq. destruct (L5 q (or_intror Hq)) as (c & Hc). exists c. apply Keep; [exact Hc|].
      cbn. unfold rid; cbn. intros E. apply N3. rewrite <- E. apply in_map. exact Hq.
    - intros c q H. rewrite El. apply Old in H as [H|(H & Hn)].
      + injection H as -> ->. right. split; [exact Hs|]. intros w Ht. apply (target_conns h) in Ht; [|exact El].
        apply add_holds; [exact L1|lia|]. left. apply target_iff in Ht; [|exact A1]. tauto.
      + unfold rid in Hn; cbn in Hn. destruct (L6 c q H) as [[E|Hin]|[K1 K2]]; [congruence|left; exact Hin|right].
        split; [exact K1|]. intros w Ht. apply (target_conns h) in Ht; [|exact El].
        apply add_holds; [exact L1|lia|]. right. split; [apply K2; exact Ht|].
        apply NotSlot. apply K2. exact Ht.
    - intros w q Hq. apply add_holds in Hq; [|exact L1|lia].
      destruct Hq as [(T1 & T2 & ->)|(Hq & _)].
      + split; [rewrite Ei; exact N3|]. exists conn. split; [apply in_db_insert; left; reflexivity|].
        apply (target_conns h); [exact El|]. apply target_iff; [exact A1|]. tauto.
      + destruct (L7 w q Hq) as (K1 & c & K2 & K3). split; [intros K; apply K1; right; exact K|].
        exists c. split; [|apply (target_conns h); [exact El|exact K3]].
        apply Keep; [exact K2|]. unfold rid; cbn. intros E. apply K1. left; symmetry; exact E.
    - intros c q H. apply Old in H as [H|(H & _)]; [|exact (L8 c q H)]. injection H as -> ->. exact (L8 _ _ Hrow).
  Qed.

  Lemma load_loading now ps : forall h,
    loading h ps -> loading (load_rows g now h ps) [].
  Proof.
    induction ps as [|p ps IH]; intros h L; cbn [load_rows]; [exact L|].
    pose proof L as (L1 & L2 & L3 & L4 & L5 & L6 & L7 & L8).
    destruct (L5 p (or_introl eq_refl)) as (conn & Hrow).
    rewrite (find_row _ conn p L2 Hrow).
    destruct (validate_profile g h now p conn false) as [p'|] eqn:Ev.
    - destruct (validate_basic _ _ _ _ _ _ _ Ev) as (V1 & V2 & V3 & V4 & _).
      destruct (existsb (purpose_eqb (pf_purpose p')) (g_purposes g)) eqn:Ep.
      + apply IH. eapply loading_add; eauto.
        apply (accepted_static h now p conn false p'); [exact (L8 _ _ Hrow)|exact Ev|].
          intros _. rewrite <- V2. apply in_purposes. exact Ep.
      + apply IH. apply (loading_drop h p ps conn L Hrow).
    - apply IH. apply (loading_drop h p ps conn L Hrow).
  Qed.

  Lemma loaded_db_ok h : loading h [] -> db_ok g h /\ in_sync h.
  Proof.
    intros (L1 & L2 & L3 & L4 & L5 & L6 & L7 & L8). split.
    - split; [exact L2|]. split; [exact L4|]. split.
      + intros c q H. destruct (L6 c q H) as [[]|[K _]]. exact K.
      + intros c q w H Ht. destruct (L6 c q H) as [[]|[_ K]]. exact (K w Ht).
    - intros w q. split.
      + intros H. exact (proj2 (L7 w q H)).
      + intros (c & H & Ht). destruct (L6 c q H) as [[]|[_ K]]. exact (K w Ht).
  Qed.

  Definition emptied (txs : list (option (Z * Z))) (h : handler) : handler :=
    {| h_max := [];
       h_conns := map (fun t => {| c_tx := t; c_txdefault := []; c_txprofiles := [] |}) txs;
       h_db := h_db h |}.

  Lemma emptied_holds txs h w q : ~ holds (emptied txs h) w q.
  Proof.
    intros H. destruct w; cbn in H.
    - exact H.
    - destruct H as (c & Ec & Hp). unfold connector_at in Ec. destruct (conn <? 0); [discriminate|]. cbn in Ec.
      rewrite nth_error_map in Ec. destruct (nth_error txs (Z.to_nat conn)); [|discriminate].
      injection Ec as <-. exact Hp.
    - destruct H as (c & Ec & Hp). unfold connector_at in Ec. destruct (conn <? 0); [discriminate|]. cbn in Ec.
      rewrite nth_error_map in Ec. destruct (nth_error txs (Z.to_nat conn)); [|discriminate].
      injection Ec as <-. exact Hp.
  Qed.

  Lemma emptied_loading t txs h :
    db_ok g h -> loading (emptied (t :: txs) h) (map snd (h_db h)).
  Proof.
    intros (D1 & D2 & D3 & D4).
    split; [|split; [|split; [|split; [|split; [|split; [|split]]]]]].
    - unfold handler_ok, emptied. cbn. split; [split; cbn; constructor|]. split.
      + apply Forall_cons; [split; split; cbn; constructor|].
        apply Forall_forall. intros c Hc. apply in_map_iff in Hc as (t' & <- & _). split; split; cbn; constructor.
      + eexists _, _. split; [reflexivity|]. split; reflexivity.
    - exact D1.
    - rewrite map_map. exact D1.
    - exact D2.
    - intros p Hp. apply in_map_iff in Hp as ((c & p') & <- & Hin). exists c. exact Hin.
    - intros c q H. left. apply in_map_iff. exists (c, q). auto.
    - intros w q H. exfalso. exact (emptied_holds _ _ _ _ H).
    - intros c q H. destruct (D3 c q H) as ((_ & K) & _). exact K.
  Qed.

  Lemma restart_db_ok h now t txs :
    db_ok g h -> db_ok g (restart g now (t :: txs) h) /\ in_sync (restart g now (t :: txs) h).
  Proof.
    intros Hd. apply loaded_db_ok. unfold restart, load_charging_profiles.
    apply load_loading. exact (emptied_loading t txs h Hd).
  Qed.

  Lemma same_db_ok h h' :
    (forall w, map_at h' w = map_at h w) -> length (h_conns h') = length (h_conns h) -> h_db h' = h_db h ->
    db_ok g h -> db_ok g h'.
  Proof.
    intros Hm Hl Hdb (D1 & D2 & D3 & D4). unfold db_ok, stored_in_force. rewrite Hl, Hdb.
    split; [exact D1|]. split; [exact D2|]. split; [exact D3|].
    intros c q w H Ht. apply (same_maps_holds h h' w q Hm). apply (D4 c q w H).
    apply (target_conns h h' c q w Hl). exact Ht.
  Qed.

  Lemma cleared_db_ok h conn p : handler_ok h -> db_ok g h -> db_ok g (cleared_for h conn p).
  Proof.
    intros Hok Hd. unfold cleared_for. apply clear_all_db_ok; [apply clear_all_ok; exact Hok|reflexivity|].
    apply clear_all_db_ok; [exact Hok|reflexivity|exact Hd].
  Qed.

  Lemma step_db_ok h o :
    machine_ids [o] -> handler_ok h -> db_ok g h -> db_ok g (step g h o).
  Proof.
    intros Hi Hok Hd. inversion Hi as [|? ? Hi0 _]; subst. destruct o; cbn [step].
    - rewrite set_unfold. destruct (existsb (purpose_eqb (pf_purpose p)) (g_purposes g)) eqn:Ep; cbn [negb]; [|exact Hd].
      destruct (validate_profile g h now p conn false) as [q|] eqn:Ev; [|exact Hd]. cbn [fst].
      apply add_db_ok; [apply cleared_ok; exact Hok|apply cleared_db_ok; assumption|].
      rewrite (conns_len_tx _ _ (cleared_tx h conn q)).
      apply (accepted_static h now p conn false q Hi0 Ev). intros _. apply in_purposes. exact Ep.
    - unfold remote_start_profile. destruct conn as [c|]; [|exact Hd].
      destruct (purpose_eqb (pf_purpose p) PTx) eqn:Ep; [|exact Hd].
      destruct (validate_profile g h now p c true) as [q|] eqn:Ev; [|exact Hd].
      apply purpose_eqb_iff in Ep.
      destruct (validate_basic _ _ _ _ _ _ _ Ev) as (V1 & V0 & _ & _ & V2 & V3).
      replace (add_tx_profile h q c) with (add_by_purpose h q c)
        by (unfold add_by_purpose; rewrite V0, Ep; reflexivity).
      apply add_db_ok; try assumption.
      apply (accepted_static h now p c true q Hi0 Ev). congruence.
    - unfold clear_charging_profile.
      assert (Hall : db_ok g (clear_all_profiles h)).
      { unfold db_ok, stored_in_force, clear_all_profiles. cbn. split; [constructor|]. split; [intros ? ? []|].
        split; [intros ? ? []|intros ? ? ? []]. }
      destruct (f_id f) as [i|] eqn:Ei; [|destruct (f_conn f), (f_purpose f), (f_stack f)];
        try (apply clear_all_db_ok; [exact Hok|cbn; rewrite ?Ei; reflexivity|exact Hd]). exact Hall.
    - apply (same_db_ok h); [intros w; apply set_tx_map_at|cbn; apply update_nth_length|reflexivity|exact Hd].
    - unfold transaction_stopped. apply clear_all_db_ok; [|reflexivity|].
      + apply (same_maps_ok h); [intros w; apply set_tx_map_at|cbn; apply update_nth_length|exact Hok].
      + apply (same_db_ok h); [intros w; apply set_tx_map_at|cbn; apply update_nth_length|reflexivity|exact Hd].
    - apply (removal_db h _ (fun _ q => is_over now q) Hd).
      + apply conns_len_tx. apply expire_tx.
      + apply expire_shrunk.
      + intros w q Hq. rewrite expire_holds. destruct (expired now q) eqn:E.
        * right. apply expired_iff. exact E.
        * left. split; [exact Hq|]. intros K. apply expired_iff in K. congruence.
      + intros r Hr w p Hp Ho. apply expire_db in Hr as [_ Hr]. exact (Hr w p Hp Ho).
    - apply restart_db_ok. exact Hd.
  Qed.

  Lemma run_db_ok n os : machine_ids os -> db_ok g (run g n os).
  Proof.
    intros Hi. unfold run.
    assert (H0 : db_ok g (fresh n)).
    { unfold db_ok, stored_in_force, fresh. cbn. split; [constructor|]. split; [intros ? ? []|]. split; [intros ? ? []|intros ? ? ? []]. }
    assert (H1 : handler_ok (fresh n)) by apply fresh_ok.
    revert H0 H1. generalize (fresh n). induction Hi as [|o os Ho _ IH]; intros h H0 H1; cbn [fold_left]; [exact H0|].
    apply IH; [|apply step_ok; exact H1]. apply step_db_ok; try assumption. apply Forall_cons; [exact Ho|apply Forall_nil].
  Qed.

  (** *** stored profiles come back *)

  Lemma mset_length k v m : (length (mset k v m) <= S (length m))%nat.
  Proof.
    induction m as [|[k' v'] m IH]; cbn [mset length]; [lia|].
    destruct (k <? k'); cbn [length]; [lia|]. destruct (k =? k'); cbn [length]; lia.
  Qed.

  Lemma installed_add h p conn :
    number_installed (add_by_purpose h p conn) <= number_installed h + Z.max 1 (Z.of_nat (length (h_conns h))).
  Proof.
    unfold number_installed, add_by_purpose. destruct (pf_purpose p).
    - cbn. pose proof (mset_length (pf_stack p) p (h_max h)). lia.
    - unfold add_tx_default_profile.
      set (put := fun c => set_c_txdefault c (mset (pf_stack p) p (c_txdefault c))).
      set (sz := fun c n => Z.of_nat (length (c_txdefault c)) + Z.of_nat (length (c_txprofiles c)) + n).
      assert (Put : forall c n, sz (put c) n <= sz c n + 1).
      { intros c n. unfold sz, put. cbn. pose proof (mset_length (pf_stack p) p (c_txdefault c)). lia. }
      assert (Mono : forall c n m, n <= m -> sz c n <= sz c m) by (intros; unfold sz; lia).
      assert (AllM : forall l, fold_right sz 0 (map put l) <= fold_right sz 0 l + Z.of_nat (length l)).
      { induction l as [|c l IH]; cbn [map fold_right length]; [lia|].
        etransitivity; [apply Put|]. unfold sz at 1 3. lia. }
      assert (One : forall l i, fold_right sz 0 (update_nth i put l) <= fold_right sz 0 l + 1).
      { induction l as [|c l IH]; intros [|i]; cbn [update_nth fold_right]; try lia.
        - apply Put.
        - specialize (IH i). unfold sz at 1 3. lia. }
      destruct (conn =? 0).
      + destruct (h_conns h) as [|c0 r] eqn:E; cbn [set_db set_conns h_max h_conns].
        * rewrite E. cbn. lia.
        * cbn [fold_right length]. specialize (AllM r). unfold sz at 1 3. lia.
      + cbn [set_db set_conns h_max h_conns]. specialize (One (h_conns h) (Z.to_nat conn)). lia.
    - unfold add_tx_profile.
      set (put := fun c => set_c_txprofiles c (mset (pf_stack p) p (c_txprofiles c))).
      set (sz := fun c n => Z.of_nat (length (c_txdefault c)) + Z.of_nat (length (c_txprofiles c)) + n).
      assert (Put : forall c n, sz (put c) n <= sz c n + 1).
      { intros c n. unfold sz, put. cbn. pose proof (mset_length (pf_stack p) p (c_txprofiles c)). lia. }
      assert (One : forall l i, fold_right sz 0 (update_nth i put l) <= fold_right sz 0 l + 1).
      { induction l as [|c l IH]; intros [|i]; cbn [update_nth fold_right]; try lia.
        - apply Put.
        - specialize (IH i). unfold sz at 1 3. lia. }
      cbn [set_db set_conns h_max h_conns]. specialize (One (h_conns h) (Z.to_nat conn)). lia.
  Qed.

  Lemma load_keeps now ps c0 q0 : forall h,
    loading h ps ->
    (forall conn q, In (conn, q) (h_db h) -> static_ok g (Z.of_nat (length (h_conns h))) conn q) ->
    number_installed h + Z.max 1 (Z.of_nat (length (h_conns h))) * Z.of_nat (length ps) < g_max_installed g ->
    In (c0, q0) (h_db h) -> pf_purpose q0 <> PTx ->
    In (c0, q0) (h_db (load_rows g now h ps)).
  Proof.
    induction ps as [|p ps IH]; intros h L St Hn Hin Hpu; cbn [load_rows]; [exact Hin|].
    pose proof L as (L1 & L2 & L3 & L4 & L5 & L6 & L7 & L8).
    destruct (L5 p (or_introl eq_refl)) as (conn & Hrow).
    rewrite (find_row _ conn p L2 Hrow).
    set (M := Z.max 1 (Z.of_nat (length (h_conns h)))) in *.
    assert (Hps : Z.of_nat (length (p :: ps)) = Z.of_nat (length ps) + 1) by (cbn [length]; lia).
    rewrite Hps in Hn.
    assert (HM : 1 <= M) by lia.
    assert (Hnum : number_installed h < g_max_installed g) by nia.
    assert (Drop : pf_purpose p = PTx ->
              In (c0, q0) (h_db (load_rows g now (set_db h (db_delete (pf_id p) (h_db h))) ps))).
    { intros Ep. apply IH.
      - exact (loading_drop h p ps conn L Hrow).
      - intros c q H. cbn in H. apply in_db_delete in H as [H _]. exact (St c q H).
      - change (number_installed (set_db h (db_delete (pf_id p) (h_db h)))) with (number_installed h).
        cbn [set_db h_conns]. fold M. nia.
      - cbn. apply in_db_delete. split; [exact Hin|]. cbn. intros E.
        assert (X : (c0, q0) = (conn, p)) by (apply (nodup_id (h_db h)); assumption). injection X as _ ->. congruence.
      - exact Hpu. }
    assert (Add : forall p', validate_profile g h now p conn false = Some p' ->
              In (pf_purpose p') (g_purposes g) ->
              (q0 = p -> p' = p) ->
              In (c0, q0) (h_db (load_rows g now (add_by_purpose h p' conn) ps))).
    { intros p' Ev Hsup Hsame. destruct (validate_basic _ _ _ _ _ _ _ Ev) as (V1 & V2 & V3 & V4 & _).
      assert (Sp : static_ok g (Z.of_nat (length (h_conns h))) conn p').
      { apply (accepted_static h now p conn false p'); [exact (L8 _ _ Hrow)|exact Ev|]. intros _. rewrite <- V2. exact Hsup. }
      assert (Ec : match pf_purpose p' with PMax => 0 | _ => conn end = conn).
      { destruct Sp as (_ & _ & _ & _ & _ & _ & _ & _ & _ & A10).
        destruct (pf_purpose p'); try reflexivity. symmetry; apply A10. }
      pose proof (conns_len_tx _ _ (add_transactions h p' conn)) as El.
      apply IH.
      - eapply loading_add; eauto.
      - intros c q H. rewrite El. rewrite add_db, Ec in H. apply in_db_insert in H as [H|(H & _)].
        + injection H as -> ->. exact Sp.
        + exact (St c q H).
      - rewrite El. fold M. pose proof (installed_add h p' conn). fold M in H. nia.
      - rewrite add_db, Ec. apply in_db_insert.
        assert (Dq : q0 = p \/ pf_id q0 <> pf_id p).
        { destruct (Z.eq_dec (pf_id q0) (pf_id p)) as [E|E]; [left|right; exact E].
          assert (X : (c0, q0) = (conn, p)) by (apply (nodup_id (h_db h)); assumption). injection X as _ ->. reflexivity. }
        destruct Dq as [E|E].
        + left. assert (X : (c0, q0) = (conn, p)) by (apply (nodup_id (h_db h)); try assumption; rewrite E; reflexivity).
          injection X as -> ->. rewrite (Hsame E). reflexivity.
        + right. split; [exact Hin|]. split; [unfold rid; cbn; rewrite V3; exact E|].
          intros Sl. apply E. change (pf_id q0) with (rid (c0, q0)). change (pf_id p) with (rid (conn, p)). f_equal.
          apply L4; [exact Hin|exact Hrow|]. cbn in *. destruct Sl. split; congruence.
      - exact Hpu. }
    destruct (pf_purpose p) eqn:Epu.
    1, 2: assert (Ev : validate_profile g h now p conn false = Some p)
            by (apply static_accepted; [exact (St conn p Hrow)|exact Hnum|congruence]);
          rewrite Ev; rewrite (proj2 (in_purposes (pf_purpose p) (g_purposes g)));
          [apply Add; [exact Ev| |reflexivity]|]; apply (St conn p Hrow); congruence.
    destruct (validate_profile g h now p conn false) as [p'|] eqn:Ev.
    - destruct (existsb (purpose_eqb (pf_purpose p')) (g_purposes g)) eqn:Ep.
      + apply Add; [reflexivity|apply in_purposes; exact Ep|]. intros E. congruence.
      + apply Drop. reflexivity.
    - apply Drop. reflexivity.
  Qed.

  Lemma restart_conns h now txs : length (h_conns (restart g now txs h)) = length txs.
  Proof.
    unfold restart, load_charging_profiles.
    set (h0 := {| h_max := []; h_conns := _; h_db := _ |}).
    assert (E : length (h_conns h0) = length txs) by (cbn; apply map_length).
    rewrite <- E. generalize (map snd (h_db h0)) as ps. clearbody h0. clear E. intros ps. revert h0.
    induction ps as [|p ps IH]; intros h0; cbn [load_rows]; [reflexivity|].
    destruct (find (fun x => pf_id (snd x) =? pf_id p) (h_db h0)) as [[conn r]|]; [|apply IH].
    destruct (validate_profile g h0 now p conn false) as [p'|].
    - destruct (existsb (purpose_eqb (pf_purpose p')) (g_purposes g)).
      + rewrite IH. apply conns_len_tx. apply add_transactions.
      + rewrite IH. reflexivity.
    - rewrite IH. reflexivity.
  Qed.

  Lemma step_conns h o n :
    same_station n [o] -> length (h_conns h) = S n -> length (h_conns (step g h o)) = S n.
  Proof.
    intros Hs Hl. inversion Hs as [|? ? Hs0 _]; subst. rewrite <- Hl. destruct o; cbn [step].
    - rewrite set_unfold. destruct (negb _); [reflexivity|].
      destruct (validate_profile g h now p conn false) as [q|]; [|reflexivity]. cbn [fst].
      apply conns_len_tx. rewrite add_transactions. apply cleared_tx.
    - unfold remote_start_profile. destruct conn as [c|]; [|reflexivity].
      destruct (purpose_eqb (pf_purpose p) PTx); [|reflexivity].
      destruct (validate_profile g h now p c true) as [q|]; [|reflexivity].
      cbn. apply update_nth_length.
    - unfold clear_charging_profile. destruct (f_id f), (f_conn f), (f_purpose f), (f_stack f);
        try (apply conns_len_tx; apply clear_all_tx). cbn. apply map_length.
    - cbn. apply update_nth_length.
    - unfold transaction_stopped. rewrite (conns_len_tx _ _ (clear_all_tx _ _ _)). cbn. apply update_nth_length.
    - apply conns_len_tx. apply expire_tx.
    - rewrite restart_conns. cbn [length]. rewrite Hl. f_equal. exact Hs0.
  Qed.

  Lemma run_conns n os : same_station n os -> length (h_conns (run g n os)) = S n.
  Proof.
    intros Hs. unfold run. assert (H0 : length (h_conns (fresh n)) = S n) by (cbn; rewrite repeat_length; reflexivity).
    revert H0. generalize (fresh n). induction Hs as [|o os Ho _ IH]; intros h H0; cbn [fold_left]; [exact H0|].
    apply IH. apply step_conns; [apply Forall_cons; [exact Ho|apply Forall_nil]|exact H0].
  Qed.

  Lemma restart_keeps n os now resumed conn q w :
    let h := run g n os in
    machine_ids os -> same_station n os -> length resumed = n ->
    Z.of_nat (length (h_db h)) * Z.of_nat (S n) < g_max_installed g ->
    In (conn, q) (h_db h) -> pf_purpose q <> PTx -> target h conn q w ->
    holds (step g h (OpRestart now resumed)) w q.
  Proof.
    cbn zeta. intros Hi Hs Hr Hmax Hin Hpu Ht. set (h := run g n os) in *.
    pose proof (run_db_ok n os Hi) as Hd. fold h in Hd.
    pose proof (run_conns n os Hs) as Hl. fold h in Hl.
    destruct (restart_db_ok h now None resumed Hd) as [_ Sync]. cbn [step].
    apply Sync. exists conn. split.
    - unfold restart, load_charging_profiles.
      change {| h_max := []; h_conns := _; h_db := h_db h |} with (emptied (None :: resumed) h).
      assert (El : length (h_conns (emptied (None :: resumed) h)) = S n).
      { unfold emptied. cbn. rewrite map_length. f_equal. exact Hr. }
      apply load_keeps.
      + exact (emptied_loading None resumed h Hd).
      + intros c p H. rewrite El, <- Hl. destruct Hd as (_ & _ & D3 & _). apply D3. exact H.
      + rewrite El. cbn [emptied h_db]. rewrite map_length.
        assert (E0 : number_installed (emptied (None :: resumed) h) = 0).
        { rewrite number_installed_spec.
          enough (K : all_installed (emptied (None :: resumed) h) = []) by (rewrite K; reflexivity).
          unfold all_installed, emptied. cbn. clear. induction resumed; cbn; [reflexivity|exact IHresumed]. }
        rewrite E0. rewrite Z.max_r by lia. rewrite Z.mul_comm. exact Hmax.
      + exact Hin.
      + exact Hpu.
    - apply (target_conns h); [|exact Ht]. rewrite restart_conns, Hl. cbn. f_equal. exact Hr.
  Qed.
End Cfg.
