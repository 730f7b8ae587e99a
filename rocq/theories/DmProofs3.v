(** Lemmas for the device model: SetVariables and reports. *)
From Coq Require Import ZArith List Bool String Ascii QArith Lia.
From Verif Require Import StrModel StrSpec StrProofs DmModel DmSpec DmProofs DmProofs2.
Import ListNotations.
Local Open Scope string_scope.
Local Open Scope Z_scope.

(** ** SetVariables *)

Lemma ka_dec (k k' : key) (a a' : attr_type) : {(k, a) = (k', a')} + {(k, a) <> (k', a')}.
Proof.
  destruct (key_dec k k') as [<- | N]; [|right; intros X; injection X; intros; subst; apply N; reflexivity].
  destruct (attr_eqb a a') eqn:E; [left; apply attr_eqb_ok in E; subst; reflexivity|].
  right. intros X. injection X as X. subst. rewrite (proj2 (attr_eqb_ok a' a') eq_refl) in E. discriminate.
Qed.

Definition settable (d : dm) (c : component) (v : variable) (a : attr_type) (value : string) (aro : bool) : Prop :=
  exists m r, may_set d c v a value aro m r.

Lemma set_keeps_settable d d' k a value src : attribute_set d d' k a value src ->
  forall c' v' a' value' aro, settable d c' v' a' value' aro <-> settable d' c' v' a' value' aro.
Proof.
  intros (M & _ & _ & O & S) c' v' a' value' aro. unfold settable, may_set, known. rewrite M.
  assert (D := ka_dec (c', v') k a' a).
  split; intros (m & r & K & ST & V & RO); exists m.
  - destruct D as [E|N].
    + inversion E. subst. eexists. split; [auto|]. split; [apply S; exists r; split; [exact ST|reflexivity]|]. auto.
    + exists r. split; auto. split; auto. apply O; auto.
  - destruct D as [E|N].
    + inversion E. subst. apply S in ST. destruct ST as (r0 & ST & ->). exists r0. auto.
    + exists r. split; auto. split; auto. apply O; auto.
Qed.

Lemma put_result_new k r l : (forall e, In e l -> set_key_same k (fst e) = false) -> put_result k r l = (l ++ [(k, r)])%list.
Proof.
  induction l as [|[k' r'] l IH]; intros H; cbn [put_result]; auto.
  assert (X := H (k', r') (or_introl eq_refl)). cbn [fst] in X. rewrite X. cbn. f_equal. apply IH.
  intros e I. apply H. right. auto.
Qed.

Lemma set_key_same_ok a b : set_key_same a b = true <-> same_component (s_comp a) (s_comp b) /\ s_var a = s_var b.
Proof. unfold set_key_same. rewrite andb_true_iff, comp_eq_ok, var_same_ok. tauto. Qed.

Lemma same_opt_text_sym a b : same_opt_text a b -> same_opt_text b a.
Proof. intros H. apply opt_ci_ok in H. apply opt_ci_ok. destruct a, b; cbn in *; auto. unfold ci_eq in *. rewrite iequals_sym. auto. Qed.

Lemma same_component_sym a b : same_component a b -> same_component b a.
Proof. intros (A & B & C). repeat split; auto. apply same_opt_text_sym. auto. Qed.

Lemma same_opt_text_refl a : same_opt_text a a.
Proof. apply opt_ci_ok. destruct a; cbn; auto. apply iequals_refl. Qed.

Lemma same_component_refl a : same_component a a.
Proof. repeat split. apply same_opt_text_refl. Qed.

Definition is_accepted (st : var_status) : bool := match st with Accepted => true | _ => false end.

(** The loop without the map: statuses in order. *)
Fixpoint set_seq (d : dm) (l : list set_data) (src : string) (aro : bool) (valid : set_data -> bool) (oks : list bool)
  : dm * list var_status :=
  match l with
  | [] => (d, [])
  | s :: l' =>
      let '(d', st) :=
        if valid s then
          let '(d', st, _) := set_value d (s_comp s) (s_var s) (attr_or_actual (s_attr s)) (s_value s) src aro
                                        (hd true oks) false in (d', st)
        else (d, Rejected) in
      let '(d'', sts) := set_seq d' l' src aro valid (tl oks) in (d'', st :: sts)
  end.

Definition res_of (s : set_data) (st : var_status) : set_result := mkRes (s_comp s) (s_var s) (attr_or_actual (s_attr s)) st.

Lemma loop_state l : forall d src aro valid oks acc,
  fst (set_variables_loop d l src aro valid oks acc) = fst (set_seq d l src aro valid oks).
Proof.
  induction l as [|s l IH]; intros; cbn [set_variables_loop set_seq]; auto.
  destruct (if valid s then _ else _) as [d' st]. rewrite IH. destruct (set_seq d' l src aro valid (tl oks)). reflexivity.
Qed.

Lemma loop_results l : forall d src aro valid oks acc,
  distinct_requests l -> (forall e s, In e acc -> In s l -> set_key_same s (fst e) = false) ->
  snd (set_variables_loop d l src aro valid oks acc)
  = (acc ++ map (fun p => (fst p, res_of (fst p) (snd p))) (combine l (snd (set_seq d l src aro valid oks))))%list.
Proof.
  induction l as [|s l IH]; intros d src aro valid oks acc D A; cbn [set_variables_loop set_seq].
  - cbn. rewrite app_nil_r. reflexivity.
  - destruct (if valid s then _ else _) as [d' st]. inversion D as [|x y F D']. subst.
    rewrite put_result_new by (intros e I; apply A; [auto|left; auto]).
    rewrite IH; auto.
    + destruct (set_seq d' l src aro valid (tl oks)) as [d'' sts]. cbn [snd combine map]. rewrite <- app_assoc. reflexivity.
    + intros e s' I I'. apply in_app_or in I. destruct I as [I|[<- | []]]; [apply A; [auto|right; auto]|]. cbn [fst].
      rewrite Forall_forall in F. specialize (F s' I'). destruct (set_key_same s' s) eqn:E; auto. exfalso. apply F.
      apply set_key_same_ok in E. destruct E as [E1 E2]. split; [apply same_component_sym; auto|auto].
Qed.

Lemma seq_length l : forall d src aro valid oks, List.length (snd (set_seq d l src aro valid oks)) = List.length l.
Proof.
  induction l as [|s l IH]; intros; cbn [set_seq]; auto. destruct (if valid s then _ else _) as [d' st].
  specialize (IH d' src aro valid (tl oks)). destruct (set_seq d' l src aro valid (tl oks)). cbn in *. auto.
Qed.

(** Requests of [l] with status accepted. *)
Definition accepted_of (l : list set_data) (sts : list var_status) : list set_data :=
  map fst (filter (fun p => is_accepted (snd p)) (combine l sts)).

Lemma names_eq s : names s = ((s_comp s, s_var s), attr_or_actual (s_attr s)).
Proof. reflexivity. Qed.

Lemma carried_nil d src : carried_out d d src [].
Proof.
  split; [auto|split; [auto|split; [auto|]]]. intros k a r'. split; intros H.
  - right. split; [intros s []|auto].
  - destruct H as [(s & r & [] & _)|[_ H]]; auto.
Qed.

Lemma seq_carried l : forall d src aro valid oks, tables_ok d -> distinct_requests l ->
  let sts := snd (set_seq d l src aro valid oks) in
  carried_out d (fst (set_seq d l src aro valid oks)) src (accepted_of l sts) /\
  (forall i s, nth_error l i = Some s -> exists st, nth_error sts i = Some st /\
     (st = Accepted <-> valid s = true /\ settable d (s_comp s) (s_var s) (attr_or_actual (s_attr s)) (s_value s) aro /\
                        nth i oks true = true)).
Proof.
  induction l as [|s l IH]; intros d src aro valid oks T D.
  - split; [apply carried_nil|]. intros [|i] s; discriminate.
  - cbn zeta. cbn [set_seq]. inversion D as [|x y F D']. subst. rewrite Forall_forall in F.
    assert (STEP : exists d1 st, (if valid s then
          let '(d', st, _) := set_value d (s_comp s) (s_var s) (attr_or_actual (s_attr s)) (s_value s) src aro
                                        (hd true oks) false in (d', st)
        else (d, Rejected)) = (d1, st) /\ tables_ok d1 /\
        (st = Accepted /\ valid s = true /\ settable d (s_comp s) (s_var s) (attr_or_actual (s_attr s)) (s_value s) aro /\ hd true oks = true /\
           attribute_set d d1 (s_comp s, s_var s) (attr_or_actual (s_attr s)) (s_value s) src
         \/ st <> Accepted /\ d1 = d /\
            ~ (valid s = true /\ settable d (s_comp s) (s_var s) (attr_or_actual (s_attr s)) (s_value s) aro /\ hd true oks = true))).
    { destruct (valid s).
      - assert (C := set_value_cases d (s_comp s) (s_var s) (attr_or_actual (s_attr s)) (s_value s) src aro (hd true oks) false T).
        assert (T' := set_value_tables d (s_comp s) (s_var s) (attr_or_actual (s_attr s)) (s_value s) src aro (hd true oks) false T).
        destruct (set_value d (s_comp s) (s_var s) (attr_or_actual (s_attr s)) (s_value s) src aro (hd true oks) false) as [[d1 st] ev].
        exists d1, st. split; auto. split; auto. destruct C as [(A & m & r & MS & O & AS & _)|(A & E & _ & N & _)].
        + left. split; [auto|split; [auto|split; [exists m, r; auto|split; auto]]].
        + right. repeat split; auto. intros (_ & (m & r & MS) & O). apply N. exists m, r. auto.
      - exists d, Rejected. split; auto. split; auto. right. repeat split; auto; [discriminate|]. intros (X & _). discriminate. }
    destruct STEP as (d1 & st & -> & T1 & ST). specialize (IH d1 src aro valid (tl oks) T1 D').
    destruct (set_seq d1 l src aro valid (tl oks)) as [d2 sts]. cbn [fst snd] in *. cbv zeta in IH. destruct IH as [CO NTH].
    assert (SAME : forall c' v' a' value', settable d c' v' a' value' aro <-> settable d1 c' v' a' value' aro).
    { destruct ST as [(_ & _ & _ & _ & AS)|(_ & -> & _)]; [|tauto]. intros. eapply set_keeps_settable; eauto. }
    split.
    + destruct CO as (CM & CO1 & CO2 & CO3). destruct ST as [(-> & V & SE & O & AS)|(NA & -> & N)].
      * unfold accepted_of. cbn [combine filter snd is_accepted map fst]. fold (accepted_of l sts).
        destruct AS as (AM & A1 & A2 & AO & A3).
        split; [congruence|split; [congruence|split; [congruence|]]]. intros k a r'. split.
        -- intros ST. apply CO3 in ST. destruct ST as [(s' & r & I & NM & S1 & E)|[NN S1]].
           ++ left. assert (NE : (k, a) <> ((s_comp s, s_var s), attr_or_actual (s_attr s))).
              { intros X. assert (I' : In s' l).
                { apply in_map_iff in I. destruct I as ([w1 w2] & E1 & I). apply filter_In in I. destruct I as [I _].
                  apply in_combine_l in I. cbn in E1. subst. auto. }
                apply (F s' I'). rewrite X in NM. rewrite names_eq in NM. inversion NM. split; [|congruence].
                rewrite H0. apply same_component_refl. }
              exists s', r. split; [right; auto|]. split; auto. split; auto. apply AO in S1; auto.
           ++ assert (DEC := ka_dec k (s_comp s, s_var s) a (attr_or_actual (s_attr s))).
              destruct DEC as [E|E].
              ** left. inversion E. subst k a. apply A3 in S1. destruct S1 as (r & S1 & ->). exists s, r. split; [left; auto|].
                 split; [apply names_eq|]. split; auto.
              ** right. split; [|apply AO; auto]. intros s' [<- | I]; [rewrite names_eq; congruence|auto].
        -- intros [(s' & r & [<- | I] & NM & S1 & E)|[NN S1]].
           ++ rewrite names_eq in NM. inversion NM. subst k a. apply CO3. right. split.
              ** intros s' I. intros X. assert (I' : In s' l).
                 { apply in_map_iff in I. destruct I as ([w1 w2] & E1 & I). apply filter_In in I. destruct I as [I _].
                   apply in_combine_l in I. cbn in E1. subst. auto. }
                 apply (F s' I'). rewrite names_eq in X. inversion X. split; [rewrite H0; apply same_component_refl|congruence].
              ** apply A3. exists r. auto.
           ++ apply CO3. left. exists s', r. split; auto. split; auto. split; auto. apply AO; auto.
              intros X. assert (I' : In s' l).
              { apply in_map_iff in I. destruct I as ([w1 w2] & E1 & I). apply filter_In in I. destruct I as [I _].
                apply in_combine_l in I. cbn in E1. subst. auto. }
              apply (F s' I'). rewrite X in NM. rewrite names_eq in NM. inversion NM. split; [|congruence].
              rewrite H0. apply same_component_refl.
           ++ apply CO3. right. split; [intros s' I; apply NN; right; auto|]. apply AO; auto. intros X. apply (NN s); [left; auto|].
              rewrite names_eq. symmetry; exact X.
      * assert (E : accepted_of (s :: l) (st :: sts) = accepted_of l sts).
        { unfold accepted_of. cbn [combine filter snd]. destruct st; try reflexivity. congruence. }
        rewrite E. split; [auto|split; [auto|split; [auto|exact CO3]]].
    + intros [|i] s' E; cbn [nth_error] in *.
      * injection E as <-. exists st. split; auto. destruct ST as [(-> & V & SE & O & _)|(NA & _ & N)].
        -- split; auto. intros _. repeat split; auto. destruct oks; auto.
        -- split; [contradiction|]. intros (V & SE & O). exfalso. apply N. repeat split; auto. destruct oks; auto.
      * destruct (NTH i s' E) as (st' & E' & Q). exists st'. split; auto. rewrite Q, SAME.
        replace (nth i (tl oks) true) with (nth (S i) oks true) by (destruct oks; [destruct i; reflexivity|reflexivity]). tauto.
Qed.

(** Whatever the requests, read-only attributes stay as they are. *)
Lemma set_value_read_only d c v a value src ok lst : tables_ok d ->
  forall k a' r, a_mut r = ReadOnly ->
    (stored (fst (fst (set_value d c v a value src false ok lst))) k a' r <-> stored d k a' r).
Proof.
  intros T k a' r RO. assert (C := set_value_cases d c v a value src false ok lst T).
  destruct (set_value d c v a value src false ok lst) as [[d' st] ev]. cbn [fst].
  destruct C as [(_ & m & r0 & (K & S & V & X) & _ & (AM & A1 & A2 & AO & A3) & _)|(_ & -> & _)]; [|tauto].
  destruct (key_dec k (c, v)) as [-> | N]; [|apply AO; congruence].
  destruct (attr_eqb a' a) eqn:E.
  - apply attr_eqb_ok in E. subst a'. assert (NR : a_mut r0 <> ReadOnly) by (intros Y; specialize (X Y); discriminate).
    destruct T as [_ NA]. split; intros H.
    + apply A3 in H. destruct H as (r1 & S1 & ->). cbn in RO. rewrite (stored_fun _ _ _ _ _ NA S1 S) in RO. contradiction.
    + rewrite (stored_fun _ _ _ _ _ NA H S) in RO. contradiction.
  - apply AO. intros X'. injection X' as X'. rewrite X' in E. rewrite (proj2 (attr_eqb_ok a a) eq_refl) in E. discriminate.
Qed.

Lemma seq_read_only l : forall d src valid oks, tables_ok d ->
  let d' := fst (set_seq d l src false valid oks) in
  tables_ok d' /\ forall k a r, a_mut r = ReadOnly -> (stored d' k a r <-> stored d k a r).
Proof.
  induction l as [|s l IH]; intros d src valid oks T; cbn zeta; cbn [set_seq]; [split; [auto|tauto]|].
  destruct (valid s).
  - assert (T' := set_value_tables d (s_comp s) (s_var s) (attr_or_actual (s_attr s)) (s_value s) src false (hd true oks) false T).
    assert (R := set_value_read_only d (s_comp s) (s_var s) (attr_or_actual (s_attr s)) (s_value s) src (hd true oks) false T).
    destruct (set_value d (s_comp s) (s_var s) (attr_or_actual (s_attr s)) (s_value s) src false (hd true oks) false) as [[d1 st] ev].
    cbn [fst] in *. specialize (IH d1 src valid (tl oks) T'). cbv zeta in IH. destruct (set_seq d1 l src false valid (tl oks)). cbn [fst] in *.
    destruct IH as [IH1 IH2]. split; auto. intros k a r RO. rewrite IH2, R; tauto.
  - specialize (IH d src valid (tl oks) T). cbv zeta in IH. destruct (set_seq d l src false valid (tl oks)). auto.
Qed.

(** ** Reports *)

Lemma flat_map_keys {A B K} (f : A -> list B) (ka : A -> K) (kb : B -> K) (l : list A) :
  (forall a b, In b (f a) -> kb b = ka a) -> (forall a, (List.length (f a) <= 1)%nat) -> NoDup (map ka l) ->
  NoDup (map kb (flat_map f l)).
Proof.
  intros HK HL. induction l as [|x l IH]; cbn; intros N; [constructor|].
  inversion N as [|y z NI N']. subst. rewrite map_app.
  specialize (HK x) as HKx. specialize (HL x). destruct (f x) as [|b [|b' q]]; cbn in *; [auto| |lia].
  constructor; auto. intros I. apply in_map_iff in I. destruct I as (w & E & I). apply in_flat_map in I.
  destruct I as (a & Ia & Ib). apply HK in Ib. rewrite (HKx b) in E by auto. apply NI. apply in_map_iff. exists a. split; auto. congruence.
Qed.

Lemma NoDup_rows d k : NoDup (map (fun r => (a_key r, a_type r)) (d_attrs d)) -> NoDup (get_variable_attributes d k None).
Proof.
  intros N. apply NoDup_filter. eapply NoDup_map_inv. exact N.
Qed.

Lemma Forall2_flat_map {A B} (f : A -> list B) (P : A -> bool) (R : A -> B -> Prop) l :
  (forall a, In a l -> P a = true -> exists b, f a = [b] /\ R a b) -> (forall a, In a l -> P a = false -> f a = []) ->
  Forall2 R (filter P l) (flat_map f l).
Proof.
  induction l as [|x l IH]; cbn; intros H1 H2; [constructor|]. destruct (P x) eqn:E.
  - destruct (H1 x (or_introl eq_refl) E) as (b & -> & Rb). constructor; auto.
  - rewrite (H2 x (or_introl eq_refl) E). apply IH; auto.
Qed.

Lemma summary_ok k r : include_in_summary_inventory k r = true <-> summary_selects k r.
Proof.
  unfold include_in_summary_inventory, summary_selects, is_var. cbn [map In].
  assert (C : comp_eq (fst k) (ctrl "ChargingStation") = true <-> fst k = mkC "ChargingStation" None None)
    by (rewrite comp_eq_ok, same_component_ctrl; tauto).
  assert (V : forall n, var_eq (snd k) (plain n) = true <-> snd k = mkV n None) by (intros n; rewrite var_eq_ok, same_variable_plain; tauto).
  assert (S : forall n, ci_eq (c_name (fst k)) n = true <-> same_text (c_name (fst k)) n) by (intros n; apply iequals_same).
  assert (T : ci_eq (match a_value r with Some s => s | None => "" end) "true" = true <-> exists s, a_value r = Some s /\ same_text s "true").
  { unfold ci_eq. destruct (a_value r) as [s|].
    - rewrite iequals_same. split; [eauto|]. intros (s' & E & H). injection E as ->. auto.
    - split; [discriminate|]. intros (s' & E & _). discriminate. }
  transitivity (comp_eq (fst k) (ctrl "ChargingStation") && var_eq (snd k) (plain "AvailabilityState")
     || ci_eq (c_name (fst k)) "EVSE" && var_eq (snd k) (plain "AvailabilityState")
     || ci_eq (c_name (fst k)) "Connector" && var_eq (snd k) (plain "AvailabilityState")
     || (var_eq (snd k) (plain "Fallback") || var_eq (snd k) (plain "Overload") || var_eq (snd k) (plain "Problem") || var_eq (snd k) (plain "Tripped"))
          && ci_eq (match a_value r with Some s => s | None => "" end) "true" = true).
  { repeat match goal with |- context [if ?b then _ else _] => destruct b end; cbn; split; auto. }
  rewrite !orb_true_iff, !andb_true_iff, !orb_true_iff, C, !V, !S, T. intuition congruence.
Qed.

Definition base_selb (b : report_base) (k : key) (r : attr_row) : bool :=
  match b with
  | FullInventory => true
  | ConfigurationInventory => mut_eqb (a_mut r) ReadWrite || mut_eqb (a_mut r) WriteOnly
  | SummaryInventory => include_in_summary_inventory k r
  end.

Lemma base_selb_ok b k r : base_selb b k r = true <-> base_selects b k r.
Proof.
  destruct b; cbn [base_selb base_selects].
  - destruct (a_mut r); cbn; intuition congruence.
  - tauto.
  - apply summary_ok.
Qed.

Lemma base_attrs_sel b k rows :
  Forall2 (match b with SummaryInventory => shows_plainly | _ => shows_safely end) (filter (base_selb b k) rows) (base_attrs b k rows).
Proof.
  assert (SS : forall r, shows_safely r (scrubbed r)).
  { intros r. unfold shows_safely, tells, scrubbed. cbn. repeat split; auto; intros M.
    - rewrite M. reflexivity.
    - destruct (mut_eqb (a_mut r) WriteOnly) eqn:E; auto. apply mut_eqb_ok in E. contradiction. }
  assert (SP : forall r, shows_plainly r (report_attr r)) by (intros r; repeat split).
  unfold base_attrs. apply Forall2_flat_map; intros r _ E; destruct b; cbn [base_selb] in E; rewrite ?E; eauto. discriminate.
Qed.

Lemma base_report_ok d b : tables_ok d ->
  report_exact d (base_selects b) (match b with SummaryInventory => shows_plainly | _ => shows_safely end) (get_base_report_data d b).
Proof.
  intros [ND NA]. unfold get_base_report_data.
  set (f := fun e : key * meta => match base_attrs b (fst e) (get_variable_attributes d (fst e) None) with
                   | [] => [] | ats => [mkRep (fst e) ats (match b with SummaryInventory => None | _ => Some (m_char (snd e)) end)] end).
  assert (FE : forall e rp, In rp (f e) -> rp_key rp = fst e /\ rp_attrs rp = base_attrs b (fst e) (get_variable_attributes d (fst e) None) /\
                  (forall ch, rp_char rp = Some ch -> ch = m_char (snd e))).
  { intros e rp. unfold f. destruct (base_attrs b (fst e) (get_variable_attributes d (fst e) None)); intros H; [contradiction|].
    destruct H as [<- | []]. cbn. repeat split; auto. intros ch. destruct b; congruence. }
  split; [|split; [|split]].
  - apply flat_map_keys with (ka := fst).
    + intros e rp H. apply FE in H. tauto.
    + intros e. unfold f. destruct (base_attrs _ _ _); cbn; lia.
    + exact ND.
  - intros k. rewrite in_map_iff. split.
    + intros (rp & <- & I). apply in_flat_map in I. destruct I as (e & Ie & If). assert (X := FE _ _ If). destruct X as (-> & _ & _).
      split; [exists (snd e); unfold known; rewrite <- surjective_pairing; auto|].
      assert (S := base_attrs_sel b (fst e) (get_variable_attributes d (fst e) None)).
      unfold f in If. destruct (base_attrs b (fst e) (get_variable_attributes d (fst e) None)) as [|x q]; [contradiction|].
      inversion S as [|r x' rows q' Hr HS E1 E2]. subst.
      assert (IR : In r (filter (base_selb b (fst e)) (get_variable_attributes d (fst e) None))) by (rewrite <- E1; left; auto).
      apply filter_In in IR. destruct IR as [IR SB]. apply rows_in in IR. exists r. apply base_selb_ok in SB. tauto.
    + intros ((m & K) & r & IR & KR & SR). assert (S := base_attrs_sel b k (get_variable_attributes d k None)).
      assert (IF : In r (filter (base_selb b k) (get_variable_attributes d k None))).
      { apply filter_In. split; [apply rows_in; repeat split; auto; discriminate|apply base_selb_ok; auto]. }
      destruct (base_attrs b k (get_variable_attributes d k None)) as [|x q] eqn:E.
      { inversion S as [E1 E2|]. rewrite <- E1 in IF. contradiction. }
      exists (mkRep k (x :: q) (match b with SummaryInventory => None | _ => Some (m_char m) end)). split; auto.
      apply in_flat_map. exists (k, m). split; auto. unfold f. cbn [fst snd]. rewrite E. left. reflexivity.
  - intros rp I. apply in_flat_map in I. destruct I as (e & Ie & If). destruct (FE _ _ If) as (-> & -> & _).
    exists (filter (base_selb b (fst e)) (get_variable_attributes d (fst e) None)). split; [|split].
    + apply NoDup_filter. apply NoDup_rows. auto.
    + intros r. rewrite filter_In, rows_in, base_selb_ok. split; [tauto|]. intros (A & B & C). repeat split; auto. discriminate.
    + apply base_attrs_sel.
  - intros rp ch I E. apply in_flat_map in I. destruct I as (e & Ie & If). destruct (FE _ _ If) as (-> & _ & C).
    exists (snd e). split; [unfold known; rewrite <- surjective_pairing; auto|auto].
Qed.

Lemma criteria_ok d c l : tables_ok d -> (component_criteria_match d c l = true <-> criteria_select d c l).
Proof.
  intros T. unfold criteria_select. induction l as [|cr l IH]; cbn [component_criteria_match].
  - split; [discriminate|]. intros (cr & [] & _).
  - assert (S := request_sound d c (plain (criterion_name cr)) Actual T).
    destruct (request_value_internal d c (plain (criterion_name cr)) Actual false) as [st val] eqn:E. cbn [fst snd] in S.
    assert (RD : forall s, reads d c (mkV (criterion_name cr) None) s <-> st = Accepted /\ val = Some s).
    { intros s. unfold reads. rewrite <- request_iff by auto. unfold plain in E. rewrite E. split; [intros X; inversion X; auto|intros [-> ->]; auto]. }
    assert (CP : str_eq (criterion_name cr) "Problem" = true <-> cr = CrProblem).
    { destruct cr; cbn; intuition congruence. }
    destruct val as [s|].
    + assert (ST : st = Accepted) by (inversion S; auto). unfold string_to_bool.
      destruct (iequals s "true") eqn:I.
      * split; auto. intros _. exists cr. split; [left; auto|]. left. exists s. split; [apply RD; auto|]. apply iequals_same. auto.
      * rewrite IH. split; intros (cr' & IN & H).
        -- exists cr'. split; [right; auto|auto].
        -- destruct IN as [<- | IN]; [|exists cr'; auto]. exfalso. destruct H as [(s' & R & TX)|[NP NR]].
           ++ apply RD in R. destruct R as [_ R]. injection R as <-. apply iequals_same in TX. congruence.
           ++ apply (NR s). apply RD. auto.
    + destruct (str_eq (criterion_name cr) "Problem") eqn:P; cbn [negb].
      * rewrite IH. split; intros (cr' & IN & H).
        -- exists cr'. split; [right; auto|auto].
        -- destruct IN as [<- | IN]; [|exists cr'; auto]. exfalso. destruct H as [(s' & R & TX)|[NP NR]].
           ++ apply RD in R. destruct R as [_ R]. discriminate.
           ++ apply NP. apply CP. auto.
      * split; auto. intros _. exists cr. split; [left; auto|]. right. split; [intros X; apply CP in X; congruence|].
        intros s R. apply RD in R. destruct R as [_ R]. discriminate.
Qed.

Lemma cv_match_ok l c v : component_variables_match l c v = true <-> exists cv, In cv l /\ request_selects cv (c, v).
Proof.
  unfold component_variables_match. rewrite existsb_exists. split; intros ([c' ov] & I & H); exists (c', ov); (split; [auto|]);
    unfold request_selects in *; cbn [fst snd] in *; destruct ov as [v'|].
  - rewrite !orb_true_iff, !andb_true_iff, !comp_eq_ok, !var_eq_ok, opt_ci_ok in H. unfold ci_eq in H. rewrite !iequals_same in H.
    destruct H as [[[A B]|[[A B] C]]|[[[A B] C] E]].
    + left. auto.
    + left. split; auto. right. destruct (v_inst v'); [discriminate|auto].
    + right. destruct (c_evse c'); [discriminate|auto].
  - apply comp_eq_ok. auto.
  - rewrite !orb_true_iff, !andb_true_iff, !comp_eq_ok, !var_eq_ok, opt_ci_ok. unfold ci_eq. rewrite !iequals_same.
    destruct H as [[A [B|[B C]]]|(A & B & C & E)].
    + auto.
    + rewrite B. auto.
    + rewrite A. auto.
  - apply comp_eq_ok. auto.
Qed.

Lemma custom_report_ok d cvs crs : tables_ok d ->
  report_exact d (fun k _ => custom_selects d cvs crs k) shows_plainly (get_custom_report_data d cvs crs).
Proof.
  intros [ND NA]. assert (T : tables_ok d) by (split; auto). unfold get_custom_report_data.
  match goal with |- report_exact _ _ _ (flat_map ?g _) => set (f := g) end.
  assert (SEL : forall k, (match crs with None => true | Some l => component_criteria_match d (fst k) l end = true /\
                           match cvs with None => true | Some l => component_variables_match l (fst k) (snd k) end = true)
                          <-> custom_selects d cvs crs k).
  { intros [c v]. unfold custom_selects. cbn [fst snd]. destruct crs as [l1|], cvs as [l2|]; rewrite ?criteria_ok, ?cv_match_ok by auto; split.
    all: try (intros [A B]; split; intros l E; try discriminate; injection E as <-; auto; fail).
    all: intros [A B]; split; auto. }
  assert (SP : forall rows, Forall2 shows_plainly rows (map report_attr rows)).
  { induction rows; constructor; auto. repeat split. }
  assert (FE : forall e rp, In rp (f e) <-> custom_selects d cvs crs (fst e) /\ get_variable_attributes d (fst e) None <> [] /\
                  rp = mkRep (fst e) (map report_attr (get_variable_attributes d (fst e) None)) (Some (m_char (snd e)))).
  { intros e rp. unfold f. rewrite <- SEL.
    destruct (match crs with None => true | Some l => component_criteria_match d (fst (fst e)) l end); [|cbn; intuition discriminate].
    destruct (match cvs with None => true | Some l => component_variables_match l (fst (fst e)) (snd (fst e)) end); [|cbn; intuition discriminate].
    destruct (get_variable_attributes d (fst e) None); cbn; intuition congruence. }
  split; [|split; [|split]].
  - apply flat_map_keys with (ka := fst).
    + intros e rp H. apply FE in H. destruct H as (_ & _ & ->). reflexivity.
    + intros e. unfold f. repeat match goal with |- context [if ?b then _ else _] => destruct b end; try (cbn; lia).
      match goal with |- context [match ?x with [] => _ | _ :: _ => _ end] => destruct x end; cbn; lia.
    + exact ND.
  - intros k. rewrite in_map_iff. split.
    + intros (rp & <- & I). apply in_flat_map in I. destruct I as (e & Ie & If). apply FE in If. destruct If as (S & NE & ->). cbn [rp_key].
      split; [exists (snd e); unfold known; rewrite <- surjective_pairing; auto|].
      destruct (get_variable_attributes d (fst e) None) as [|r q] eqn:E; [congruence|].
      assert (IR : In r (get_variable_attributes d (fst e) None)) by (rewrite E; left; auto).
      apply rows_in in IR. exists r. tauto.
    + intros ((m & K) & r & IR & KR & SR).
      exists (mkRep k (map report_attr (get_variable_attributes d k None)) (Some (m_char m))). split; auto.
      apply in_flat_map. exists (k, m). split; auto. apply FE. cbn [fst snd]. split; auto. split; auto.
      intros E. assert (X : In r (get_variable_attributes d k None)) by (apply rows_in; repeat split; auto; discriminate).
      rewrite E in X. contradiction.
  - intros rp I. apply in_flat_map in I. destruct I as (e & Ie & If). apply FE in If. destruct If as (S & NE & ->). cbn [rp_key rp_attrs].
    exists (get_variable_attributes d (fst e) None). split; [apply NoDup_rows; auto|]. split; auto.
    intros r. rewrite rows_in. split; [tauto|]. intros (A & B & C). repeat split; auto. discriminate.
  - intros rp ch I E. apply in_flat_map in I. destruct I as (e & Ie & If). apply FE in If. destruct If as (S & NE & ->). cbn [rp_key rp_char] in *.
    exists (snd e). split; [unfold known; rewrite <- surjective_pairing; auto|congruence].
Qed.
