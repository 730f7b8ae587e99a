(** C28 (access control), C29 (values and characteristics), C30 (reports), C31 (monitors) of the OCPP 2.x device model. *)
From Coq Require Import ZArith List Bool String Ascii QArith Lia.
From Verif Require Import StrModel StrSpec StrProofs DmModel DmSpec DmProofs DmProofs2 DmProofs3 DmProofs4 DmProofs5.
Import ListNotations.
Local Open Scope string_scope.
Local Open Scope Z_scope.

(** ** A device model for the examples *)

Definition number_char : characteristics := mkChar TInteger (Some 0%Q) (Some (100 # 1)) None true.
Definition decimal_char : characteristics := mkChar TDecimal (Some 0%Q) (Some (100 # 1)) None true.
Definition text_char : characteristics := mkChar TString None (Some (40 # 1)) None false.
Definition base_char : characteristics := mkChar TOptionList None None (Some "All,FactoryDefault,HardWiredOnly") false.

Definition interval_key : key := (mkC "SampledDataCtrlr" None None, mkV "TxUpdatedInterval" None).
Definition temperature_key : key := (mkC "Controller" None None, mkV "Temperature" None).
Definition password_key : key := (mkC "SecurityCtrlr" None None, mkV "BasicAuthPassword" None).
Definition availability_key : key := (mkC "EVSE" None (Some (1, None)), mkV "AvailabilityState" None).

Definition hot : monitor := mkMon 3 5 false UpperThreshold (mkF false 80000000) HardWired None.

Definition station : dm :=
  mkDm [(interval_key, mkMeta number_char []); (temperature_key, mkMeta decimal_char [(3, hot)]);
        (password_key, mkMeta text_char []); (availability_key, mkMeta text_char []); (base_key, mkMeta base_char [])]
       [mkA interval_key Actual (Some "60") ReadWrite true false (Some "default");
        mkA interval_key Target (Some "60") ReadWrite true false (Some "default");
        mkA temperature_key Actual (Some "21.5") ReadOnly false false None;
        mkA password_key Actual (Some "DEADBEEFDEADBEEF") WriteOnly true false None;
        mkA availability_key Actual (Some "Available") ReadOnly false false None;
        mkA base_key Actual (Some "All") ReadOnly true false None]
       [(temperature_key, hot)] 3.

Ltac nodup := repeat (constructor; [cbn; intuition discriminate|]); constructor.

Lemma nth_combine {A B} (l : list A) : forall (m : list B) i a b,
  nth_error (combine l m) i = Some (a, b) <-> nth_error l i = Some a /\ nth_error m i = Some b.
Proof.
  induction l as [|x l IH]; intros [|y m] [|i] a b; cbn; try (split; [discriminate|intros [? ?]; discriminate]); auto.
  split; [intros E; injection E as -> ->; auto|intros [E F]; congruence].
Qed.

Lemma station_tables : tables_ok station.
Proof. split; cbn; nodup. Qed.

Lemma station_monitors : monitors_ok station.
Proof.
  unfold monitors_ok. repeat match goal with |- _ /\ _ => split end.
  - cbn. lia.
  - cbn. nodup.
  - cbn. nodup.
  - cbn. intros k mo [E|[]]. inversion E. subst. cbn. lia.
  - unfold known. cbn. intros k m H. repeat destruct H as [H|H]; try contradiction; inversion H; subst; cbn; nodup.
  - intros k i mo. unfold in_memory, known. cbn. split.
    + intros (m & K & I). repeat destruct K as [K|K]; try contradiction; inversion K; subst; cbn in I; try contradiction.
      destruct I as [I|[]]. inversion I. subst. split; auto.
    + intros ([E|[]] & J). inversion E. subst. exists (mkMeta decimal_char [(3, hot)]). split; [auto|left; reflexivity].
Qed.

(** ** C28 *)

(** GetVariables answers each request, in order, with exactly what the tables say: the value only of a known variable's
    attribute that has one and is not write-only. *)
Theorem get_variables_exact :
  forall d l, tables_ok d ->
    List.length (get_variables d l) = List.length l /\
    forall i g, nth_error l i = Some g -> exists st val,
      nth_error (get_variables d l) i = Some (st, val) /\
      forall st' val', get_outcome d (g_comp g) (g_var g) (match g_attr g with Some a => a | None => Actual end) st' val' <-> st' = st /\ val' = val.
Proof.
  intros d l T. unfold get_variables. split; [apply map_length|]. intros i g E. rewrite nth_error_map, E. cbn [option_map].
  assert (S := request_sound d (g_comp g) (g_var g) (attr_or_actual (g_attr g)) T).
  destruct (request_value_internal d (g_comp g) (g_var g) (attr_or_actual (g_attr g)) false) as [st val]. cbn [fst snd] in S.
  assert (X : (match (st, val) with (Accepted, Some s) => (Accepted, Some s) | (st, _) => (st, None) end) = (st, val)).
  { destruct S; reflexivity. }
  exists st, val. split; [f_equal; destruct st, val; try exact X; reflexivity|]. intros st' val'. split.
  - intros O. destruct (get_outcome_fun _ _ _ _ _ _ _ _ T O S). auto.
  - intros [-> ->]. exact S.
Qed.
Print Assumptions get_variables_exact.

Example get_variables_ex :
  get_variables station [mkGet (fst interval_key) (snd interval_key) (Some Target); mkGet (fst password_key) (snd password_key) None;
                         mkGet (fst password_key) (snd interval_key) None; mkGet (fst password_key) (snd password_key) (Some MaxSet)]
  = [(Accepted, Some "60"); (Rejected, None); (UnknownVariable, None); (NotSupportedAttributeType, None)].
Proof. vm_compute. reflexivity. Qed.

(** In particular no answer carries the value of a write-only attribute. *)
Theorem write_only_not_revealed :
  forall d l i g st val r, tables_ok d -> nth_error l i = Some g -> nth_error (get_variables d l) i = Some (st, val) ->
    stored d (g_comp g, g_var g) (match g_attr g with Some a => a | None => Actual end) r -> a_mut r = WriteOnly ->
    val = None /\ st <> Accepted.
Proof.
  intros d l i g st val r T E R S W. destruct (get_variables_exact d l T) as [_ H]. destruct (H i g E) as (st0 & val0 & R0 & O).
  rewrite R in R0. injection R0 as -> ->. assert (G := proj2 (O st0 val0) (conj eq_refl eq_refl)).
  inversion G; subst; try (split; [reflexivity|discriminate]). exfalso.
  match goal with S' : stored _ _ _ ?r', M : a_mut ?r' <> WriteOnly |- _ => rewrite (stored_fun _ _ _ _ _ (proj2 T) S' S) in M; contradiction end.
Qed.
Print Assumptions write_only_not_revealed.

(** A set is accepted exactly if the variable and the attribute exist, the value passes validation, a read-only
    attribute may be written and the database does its part; then that attribute, and nothing else, holds the value. In
    all other cases nothing changes and the status tells why. *)
Theorem set_value_exact :
  forall d c v a value src aro ok listener, tables_ok d ->
    let '(d', st, _) := set_value d c v a value src aro ok listener in
    (st = Accepted <->
       ok = true /\ exists m r, known d (c, v) m /\ stored d (c, v) a r /\ value_ok (m_char m) value (allow_zero c v) = true /\
         (a_mut r = ReadOnly -> aro = true)) /\
    (st = Accepted -> attribute_set d d' (c, v) a value src) /\
    (st <> Accepted -> d' = d) /\
    (st = UnknownComponent <-> ~ known_component d c) /\
    (st = UnknownVariable <-> known_component d c /\ forall m, ~ known d (c, v) m).
Proof.
  intros d c v a value src aro ok lst T. assert (C := set_value_cases d c v a value src aro ok lst T).
  destruct (set_value d c v a value src aro ok lst) as [[d' st] ev].
  destruct C as [(-> & m & r & (K & S & V & R) & O & A & _)|(N & -> & _ & NA & ST)].
  - split; [split; auto; intros _; split; auto; exists m, r; auto|]. split; auto. split; [congruence|].
    assert (KC := known_comp _ _ _ _ K). split; split; try discriminate; try contradiction. intros [_ X]. exfalso. apply (X m K).
  - split.
    { split; [contradiction|]. intros (O & m & r & H). exfalso. apply NA. exists m, r. auto. }
    split; [contradiction|]. split; auto.
    destruct st; try contradiction; split; split; try discriminate; auto.
    + intros X. exfalso. apply X. destruct ST as (m & K). eapply known_comp; eauto.
    + intros [_ X]. exfalso. destruct ST as (m & K). apply (X m K).
    + intros [X _]. contradiction.
    + intros X. destruct ST as [K _]. contradiction.
    + intros X. exfalso. apply X. destruct ST as ((m & K) & _). eapply known_comp; eauto.
    + intros [_ X]. exfalso. destruct ST as ((m & K) & _). apply (X m K).
Qed.
Print Assumptions set_value_exact.

(** An accepted set is what the next get returns (unless the attribute is write-only), and it changes no other answer. *)
Theorem set_then_get :
  forall d c v a value src aro ok listener d' ev, tables_ok d ->
    set_value d c v a value src aro ok listener = (d', Accepted, ev) ->
    (forall r, stored d (c, v) a r -> a_mut r <> WriteOnly -> get_variables d' [mkGet c v (Some a)] = [(Accepted, Some value)]) /\
    (forall c' v' a', ((c', v'), a') <> ((c, v), a) -> get_variables d' [mkGet c' v' (Some a')] = get_variables d [mkGet c' v' (Some a')]).
Proof.
  intros d c v a value src aro ok lst d' ev T E. assert (C := set_value_cases d c v a value src aro ok lst T).
  assert (T' := set_value_tables d c v a value src aro ok lst T). rewrite E in C, T'. cbn [fst] in T'.
  destruct C as [(_ & m & r & (K & S & V & R) & O & A & _)|(N & _)]; [|congruence].
  destruct A as (AM & _ & _ & AO & AS).
  assert (ONE : forall d0 c0 v0 a0 st val, tables_ok d0 -> get_outcome d0 c0 v0 a0 st val -> get_variables d0 [mkGet c0 v0 (Some a0)] = [(st, val)]).
  { intros d0 c0 v0 a0 st val T0 G. destruct (get_variables_exact d0 [mkGet c0 v0 (Some a0)] T0) as [L H].
    destruct (H 0%nat _ eq_refl) as (st0 & val0 & N0 & X). cbn [g_comp g_var g_attr] in X. apply X in G. destruct G as [-> ->].
    destruct (get_variables d0 [mkGet c0 v0 (Some a0)]) as [|y [|z t]]; try discriminate. cbn in N0. congruence. }
  split.
  - intros r0 S0 W. apply ONE; auto. rewrite (stored_fun _ _ _ _ _ (proj2 T) S0 S) in W.
    eapply get_value with (m := m); [unfold known; rewrite AM; exact K|apply AS; exists r; auto|reflexivity|exact W].
  - intros c' v' a' NE. destruct (get_variables_exact d [mkGet c' v' (Some a')] T) as [L H].
    destruct (H 0%nat _ eq_refl) as (st0 & val0 & N0 & X). cbn [g_comp g_var g_attr] in X.
    assert (G := proj2 (X st0 val0) (conj eq_refl eq_refl)).
    assert (G' : get_outcome d' c' v' a' st0 val0).
    { assert (KK : forall m, known d (c', v') m -> known d' (c', v') m) by (unfold known; rewrite AM; auto).
      assert (KK' : forall k m, known d' k m -> known d k m) by (unfold known; rewrite AM; auto).
      destruct G as [NC|KC NV|m0 K0 NS|m0 r0 s0 K0 S0 V0 W0|m0 r0 s0 K0 S0 V0 W0].
      - apply get_no_component. intros (v1 & m1 & K1). apply NC. exists v1, m1. auto.
      - apply get_no_variable; [destruct KC as (v1 & m1 & K1); exists v1, m1; unfold known in *; rewrite AM; auto|]. intros m1 K1. apply (NV m1). auto.
      - apply get_no_value with m0; auto. intros r1 S1. apply NS. apply AO in S1; auto.
      - apply get_secret with m0 r0 s0; auto. apply AO; auto.
      - apply get_value with m0 r0; auto. apply AO; auto. }
    rewrite (ONE _ _ _ _ _ _ T' G'), (ONE _ _ _ _ _ _ T G). reflexivity.
Qed.
Print Assumptions set_then_get.

Example set_then_get_ex :
  let '(d', st, _) := set_value station (fst interval_key) (snd interval_key) Target "30" "csms" false true false in
  st = Accepted /\ get_variables d' [mkGet (fst interval_key) (snd interval_key) (Some Target); mkGet (fst interval_key) (snd interval_key) None]
                   = [(Accepted, Some "30"); (Accepted, Some "60")].
Proof. vm_compute. auto. Qed.

(** Over any history of SetVariables, SetVariableMonitoring, ClearVariableMonitoring, SetMonitoringBase and updates of
    monitor references, with any outcomes of the database, a read-only attribute keeps its row; the one exception is the
    active monitoring base, which SetMonitoringBase is there to change. *)
Theorem read_only_never_changes :
  forall d ops k a r, tables_ok d -> a_mut r = ReadOnly ->
    (k, a) <> ((mkC "MonitoringCtrlr" None None, mkV "ActiveMonitoringBase" None), Actual) ->
    (stored (run_ops d ops) k a r <-> stored d k a r).
Proof. intros d ops k a r T RO N. destruct (run_ops_read_only ops d T) as [_ K]. apply K; auto. Qed.
Print Assumptions read_only_never_changes.

Example read_only_never_changes_ex :
  let d' := run_ops station [OSetVariables [mkSet (fst temperature_key) (snd temperature_key) None "90";
                                            mkSet (fst interval_key) (snd interval_key) None "90"] (fun _ => true) [];
                             OSetBase MbHardWiredOnly true true] in
  map (fun r => a_value r) (d_attrs d') =
    [Some "90"; Some "60"; Some "21.5"; Some "DEADBEEFDEADBEEF"; Some "Available"; Some "HardWiredOnly"].
Proof. vm_compute. reflexivity. Qed.

(** The library writes read-only attributes only where it may. *)
Theorem set_read_only_value_restricted :
  forall d c v a value src ok listener,
    match set_read_only_value d c v a value src ok listener with
    | Ret _ => library_may_write c v a
    | Throws _ => ~ library_may_write c v a
    end.
Proof.
  intros d c v a value src ok lst. unfold set_read_only_value.
  assert (A := allow_set_ok c v a). destruct (allow_set_read_only_value c v a) eqn:E.
  - apply A. reflexivity.
  - intros X. apply A in X. discriminate.
Qed.
Print Assumptions set_read_only_value_restricted.

(** ... and then writes like any other set, read-only or not. *)
Theorem set_read_only_value_writes :
  forall d c v a value src listener m r, tables_ok d -> library_may_write c v a ->
    known d (c, v) m -> stored d (c, v) a r -> value_ok (m_char m) value (allow_zero c v) = true ->
    exists d' ev, set_read_only_value d c v a value src true listener = Ret (d', Accepted, ev) /\ attribute_set d d' (c, v) a value src.
Proof.
  intros d c v a value src lst m r T L K S V. unfold set_read_only_value. rewrite (proj2 (allow_set_ok c v a) L).
  assert (C := set_value_cases d c v a value src true true lst T). destruct (set_value d c v a value src true true lst) as [[d' st] ev].
  destruct C as [(-> & m' & r' & _ & _ & A & _)|(_ & _ & _ & N & _)]; [eauto|].
  exfalso. apply N. exists m, r. repeat split; auto; apply S.
Qed.
Print Assumptions set_read_only_value_writes.

Example set_read_only_ex :
  library_may_write (fst availability_key) (snd availability_key) Actual /\
  (exists d' ev, set_read_only_value station (fst availability_key) (snd availability_key) Actual "Occupied" "internal" true true
                 = Ret (d', Accepted, ev)) /\
  set_read_only_value station (fst temperature_key) (snd temperature_key) Actual "30.0" "internal" true true = Throws "invalid_argument".
Proof. split; [split; auto; right; left; reflexivity|]. split; [eexists _, _; vm_compute; reflexivity|reflexivity]. Qed.

(** The listener for monitored variables hears of a set exactly if it changed the actual value of a variable that has
    monitors, and is told the value before and the value after. *)
Theorem listener_told_exactly :
  forall d c v a value src aro ok listener d' st ev, tables_ok d ->
    set_value d c v a value src aro ok listener = (d', st, ev) ->
    forall prev cur, ev = Some (prev, cur) <->
      st = Accepted /\ a = Actual /\ listener = true /\ cur = value /\ prev <> value /\
      (exists m i mo, known d (c, v) m /\ In (i, mo) (m_mons m)) /\
      (exists r, stored d (c, v) Actual r /\ (a_value r = Some prev \/ a_value r = None /\ prev = "")).
Proof.
  intros d c v a value src aro ok lst d' st ev T E prev cur. assert (C := set_value_cases d c v a value src aro ok lst T). rewrite E in C.
  destruct C as [(-> & m & r & (K & S & V & R) & O & A & EV)|(N & _ & -> & _)]; [|split; [discriminate|intros (X & _); contradiction]].
  rewrite EV. clear EV. split.
  - destruct (attr_eqb a Actual) eqn:EA; [|discriminate]. apply attr_eqb_ok in EA. subst a. destruct lst; [|discriminate].
    destruct (m_mons m) as [|[i mo] q] eqn:MM; [discriminate|]. cbn [andb List.length Nat.eqb negb]. cbv zeta.
    destruct (str_eq (match a_value r with Some s => s | None => "" end) value) eqn:SE; [discriminate|].
    intros X. injection X as X1 X2. subst cur. repeat split; auto.
    + intros Y. subst prev. assert (Z1 := proj2 (str_eq_ok value value) eq_refl). congruence.
    + exists m, i, mo. split; auto. rewrite MM. left. auto.
    + exists r. split; auto. destruct (a_value r); [left; congruence|right; auto].
  - intros (_ & -> & -> & -> & NE & (m' & i & mo & K' & I) & r' & S' & PV).
    rewrite (known_fun d _ _ _ (proj1 T) K' K) in I. rewrite (stored_fun _ _ _ _ _ (proj2 T) S' S) in PV.
    destruct (m_mons m); [contradiction|]. cbn [attr_eqb andb List.length Nat.eqb negb]. cbv zeta.
    assert (P : match a_value r with Some s => s | None => "" end = prev) by (destruct PV as [-> | [-> ->]]; reflexivity).
    rewrite P. destruct (str_eq prev value) eqn:SE; auto. apply str_eq_ok in SE. contradiction.
Qed.
Print Assumptions listener_told_exactly.

Example listener_ex :
  snd (set_value station (fst temperature_key) (snd temperature_key) Actual "85.0" "internal" true true true) = Some ("21.5", "85.0").
Proof. vm_compute. reflexivity. Qed.

Theorem get_mutability_exact :
  forall d c v a mu, tables_ok d -> (get_mutability d c v a = Some mu <-> exists r, stored d (c, v) a r /\ a_mut r = mu).
Proof.
  intros d c v a mu T. unfold get_mutability. destruct (get_variable_attribute d (c, v) a) as [r|] eqn:G.
  - apply attribute_some in G. split; [intros X; injection X as <-; eauto|]. intros (r' & S & <-).
    rewrite (stored_fun _ _ _ _ _ (proj2 T) S G). reflexivity.
  - split; [discriminate|]. intros (r & S & _). exfalso. apply (attribute_none _ _ _ G r S).
Qed.
Print Assumptions get_mutability_exact.

(** A SetVariables request whose entries name pairwise different variables: the response has one entry per request, in
    order and about it; an entry is accepted exactly if its set is acceptable by itself; the accepted ones are carried
    out, nothing else changes, and exactly they are passed on as changed. *)
Theorem set_variables_distinct_partial :
  forall d l valid oks, tables_ok d -> distinct_requests l ->
    let '(d', res, changed) := handle_set_variables_req d l valid oks in
    List.length res = List.length l /\
    (forall i s, nth_error l i = Some s -> exists r, nth_error res i = Some r /\
       r_comp r = s_comp s /\ r_var r = s_var s /\ r_attr r = snd (names s) /\
       (r_status r = Accepted <->
          valid s = true /\ nth i oks true = true /\
          exists m row, known d (s_comp s, s_var s) m /\ stored d (s_comp s, s_var s) (snd (names s)) row /\
            value_ok (m_char m) (s_value s) (allow_zero (s_comp s) (s_var s)) = true /\ a_mut row <> ReadOnly)) /\
    (forall s, In s changed <-> exists i r, nth_error l i = Some s /\ nth_error res i = Some r /\ r_status r = Accepted) /\
    carried_out d d' "csms" changed.
Proof.
  intros d l valid oks T D. unfold handle_set_variables_req, set_variables_internal.
  assert (LS := loop_state l d "csms" false valid oks []). assert (LR := loop_results l d "csms" false valid oks [] D ltac:(intros e s [])).
  destruct (set_variables_loop d l "csms" false valid oks []) as [d' res]. cbn [fst snd] in LS, LR. subst d' res.
  destruct (seq_carried l d "csms" false valid oks T D) as [CO NTH]. cbv zeta in CO, NTH.
  assert (LEN := seq_length l d "csms" false valid oks).
  set (sts := snd (set_seq d l "csms" false valid oks)) in *. cbn [app].
  assert (NR : forall i s st, nth_error l i = Some s -> nth_error sts i = Some st ->
    nth_error (map snd (map (fun p => (fst p, res_of (fst p) (snd p))) (combine l sts))) i = Some (res_of s st)).
  { intros i s st E1 E2. rewrite map_map. rewrite nth_error_map. cbn [snd].
    assert (X : nth_error (combine l sts) i = Some (s, st)).
    { apply nth_combine. auto. }
    rewrite X. reflexivity. }
  assert (CH : map fst (filter (fun e : set_data * set_result => match r_status (snd e) with Accepted => true | _ => false end)
                  (map (fun p => (fst p, res_of (fst p) (snd p))) (combine l sts))) = accepted_of l sts).
  { unfold accepted_of. generalize (combine l sts) as z. clear. induction z as [|[s st] z IH]; cbn; auto. destruct st; cbn; congruence. }
  rewrite CH. split; [|split; [|split; auto]].
  - rewrite !map_length, combine_length, LEN. apply Nat.min_id.
  - intros i s E. destruct (NTH i s E) as (st & E2 & Q). exists (res_of s st). split; [auto|]. unfold res_of. cbn.
    split; auto. split; auto. split; auto. rewrite Q. split.
    + intros (V & (m & row & K & S & VO & RO) & O). split; auto. split; auto. exists m, row. split; auto. split; auto. split; auto.
      intros X. specialize (RO X). discriminate.
    + intros (V & O & m & row & K & S & VO & RO). split; auto. split; auto. exists m, row. repeat split; auto; try apply S; try (intros X; contradiction).
  - intros s. unfold accepted_of. rewrite in_map_iff. split.
    + intros ([s' st] & E & I). cbn in E. subst s'. apply filter_In in I. destruct I as [I A]. cbn [snd] in A.
      destruct st; try discriminate. apply In_nth_error in I. destruct I as (i & I).
      assert (nth_error l i = Some s /\ nth_error sts i = Some Accepted) as [E1 E2].
      { apply nth_combine. auto. }
      exists i, (res_of s Accepted). split; auto.
    + intros (i & r & E1 & E2 & A). destruct (NTH i s E1) as (st & E3 & _). rewrite (NR i s st E1 E3) in E2. injection E2 as <-. cbn in A. subst st.
      exists (s, Accepted). split; auto. apply filter_In. split; auto.
      apply nth_error_In with i. apply nth_combine. auto.
Qed.
Print Assumptions set_variables_distinct_partial.

Example set_variables_ex :
  let l := [mkSet (fst interval_key) (snd interval_key) None "101"; mkSet (fst temperature_key) (snd temperature_key) None "3.0";
            mkSet (fst password_key) (snd password_key) None "0123456789ABCDEF"] in
  distinct_requests l /\
  map r_status (snd (fst (handle_set_variables_req station l (fun _ => true) []))) = [Rejected; Rejected; Accepted] /\
  snd (handle_set_variables_req station l (fun _ => true) []) = [mkSet (fst password_key) (snd password_key) None "0123456789ABCDEF"].
Proof.
  split; [|vm_compute; auto]. unfold distinct_requests. repeat constructor; cbn; intros [_ X]; discriminate.
Qed.

(** Without the restriction both fail, because results are kept per component and variable. A request for the Actual and
    the Target attribute of one variable gets one result only ... *)
Theorem set_variables_two_attributes_refuted :
  exists d l, tables_ok d /\ List.length l = 2%nat /\
    (forall a b, nth_error l 0 = Some a -> nth_error l 1 = Some b -> names a <> names b) /\
    List.length (snd (fst (handle_set_variables_req d l (fun _ => true) []))) = 1%nat.
Proof.
  exists station, [mkSet (fst interval_key) (snd interval_key) (Some Actual) "10"; mkSet (fst interval_key) (snd interval_key) (Some Target) "20"].
  split; [exact station_tables|]. split; auto. split; [|vm_compute; reflexivity].
  intros a b A B. injection A as <-. injection B as <-. discriminate.
Qed.
Print Assumptions set_variables_two_attributes_refuted.

(** ... and when a variable is set twice, the result is the last one's while what is passed on as changed is the first
    request: here the new password handed to the connection is one that was rejected. *)
Theorem set_variables_wrong_change_refuted :
  exists d s1 s2, tables_ok d /\ names s1 = names s2 /\ s_comp s1 = mkC "SecurityCtrlr" None None /\ s_var s1 = mkV "BasicAuthPassword" None /\
    (let '(d1, _, changed) := handle_set_variables_req d [s1; s2] (fun _ => true) [] in
     changed = [s1] /\ (exists r, stored d1 (s_comp s1, s_var s1) Actual r /\ a_value r = Some (s_value s2)) /\
     handle_set_variables_req d [s1] (fun _ => true) [] = (d, [mkRes (s_comp s1) (s_var s1) Actual Rejected], [])) /\
    s_value s1 <> s_value s2.
Proof.
  exists station, (mkSet (fst password_key) (snd password_key) None "012345678901234567890123456789012345678901234567890123456789"),
    (mkSet (fst password_key) (snd password_key) None "0123456789ABCDEF").
  split; [exact station_tables|]. repeat (split; [reflexivity|]). split; [|discriminate].
  split; [vm_compute; reflexivity|]. split; [|vm_compute; reflexivity].
  eexists. split; [split; [vm_compute; do 3 right; left; reflexivity|split; reflexivity]|reflexivity].
Qed.
Print Assumptions set_variables_wrong_change_refuted.

(** ** C29 *)

(** Decimal values: accepted exactly if the text is a decimal literal that a float can hold and its number is within the
    limits, or is a zero that is always allowed for this variable. *)
Theorem decimal_values_exact :
  forall ch c v value, ch_type ch = TDecimal ->
    (value_ok ch value (allow_zero c v) = true <->
     exists q, dec_value q value /\ float_range q /\
       (zero_allowed c v /\ (q == 0)%Q \/ at_least (ch_min ch) q /\ at_most (ch_max ch) q)).
Proof.
  intros ch c v value T. rewrite (value_ok_decimal _ _ _ T). split; intros (q & D & F & H); exists q; (split; [auto|split; [auto|]]);
    rewrite allow_zero_ok in *; auto.
Qed.
Print Assumptions decimal_values_exact.

(** All types but integers: a value is accepted exactly if it conforms. The limits of string lengths have to be whole
    numbers, the listed values and a list value must not end in an empty field (which the splitting drops), and a decimal
    value must be one a float can hold. *)
Theorem values_conform :
  forall ch c v value zero,
    (zero = true <-> zero_allowed c v) -> ch_type ch <> TInteger ->
    (ch_type ch = TString -> size_limit (ch_min ch) /\ size_limit (ch_max ch) /\ Z.of_nat (length value) < 2 ^ 64) ->
    (forall l, ch_values ch = Some l -> exists opts, csv opts l) -> (exists fields, csv fields value) ->
    (forall q, dec_value q value -> float_range q) ->
    (value_ok ch value (allow_zero c v) = true <-> conforms ch zero value).
Proof.
  intros ch c v value zero Z0 NI LS CV (fields & CF) FR.
  assert (ZE : allow_zero c v = zero).
  { apply eq_true_iff_eq. rewrite Z0. apply allow_zero_ok. }
  rewrite ZE. destruct (ch_type ch) eqn:T; try contradiction.
  - destruct (LS eq_refl) as (L & U & R). apply value_ok_string; auto.
  - rewrite (value_ok_decimal _ _ _ T). unfold conforms. rewrite T. split; intros (q & D & H); exists q; [tauto|split; auto].
  - unfold value_ok, validate_value, conforms. rewrite T. apply datetime_ok.
  - unfold value_ok, validate_value, conforms. rewrite T. rewrite orb_true_iff, !str_eq_ok. tauto.
  - unfold conforms. rewrite T. destruct (ch_values ch) as [l|] eqn:V.
    + destruct (CV l eq_refl) as (opts & C). rewrite (value_ok_options ch _ _ _ _ T V C). split.
      * intros I o l' E C'. injection E as <-. rewrite <- (csv_split _ _ C'), (csv_split _ _ C). auto.
      * intros H. apply (H opts l eq_refl C).
    + unfold value_ok, validate_value. rewrite T, V. split; auto. discriminate.
  - unfold conforms. rewrite T. destruct (ch_values ch) as [l|] eqn:V.
    + destruct (CV l eq_refl) as (opts & C). rewrite (value_ok_members ch _ _ _ _ _ (or_intror T) V C CF). split.
      * intros I o f l' E C' F'. injection E as <-. rewrite <- (csv_split _ _ C'), (csv_split _ _ C), <- (csv_split _ _ F'), (csv_split _ _ CF). auto.
      * intros H. apply (H opts fields l eq_refl C CF).
    + unfold value_ok, validate_value. rewrite T, V. split; auto. discriminate.
  - unfold conforms. rewrite T. destruct (ch_values ch) as [l|] eqn:V.
    + destruct (CV l eq_refl) as (opts & C). rewrite (value_ok_members ch _ _ _ _ _ (or_introl T) V C CF). split.
      * intros I o f l' E C' F'. injection E as <-. rewrite <- (csv_split _ _ C'), (csv_split _ _ C), <- (csv_split _ _ F'), (csv_split _ _ CF). auto.
      * intros H. apply (H opts fields l eq_refl C CF).
    + unfold value_ok, validate_value. rewrite T, V. split; auto. discriminate.
Qed.
Print Assumptions values_conform.

Example values_conform_ex :
  csv ["All"; "FactoryDefault"; "HardWiredOnly"] "All,FactoryDefault,HardWiredOnly" /\
  value_ok base_char "FactoryDefault" false = true /\ value_ok base_char "factoryDefault" false = false /\
  value_ok decimal_char "99.5" false = true /\ value_ok decimal_char "100.5" false = false /\
  value_ok text_char "01234567890123456789012345678901234567890" false = false.
Proof.
  split; [|vm_compute; auto]. unfold csv. split; [reflexivity|]. split; [|right; discriminate].
  repeat constructor; unfold without; cbn; intuition discriminate.
Qed.

(** Integers: whatever is accepted is an integer literal in the range of a 32-bit int; if the limits are natural numbers
    and there is a maximum, it is within the limits; and of the numbers that are not negative exactly the conforming ones
    are accepted. *)
Theorem integer_values_partial :
  forall ch c v value zero,
    (zero = true <-> zero_allowed c v) -> ch_type ch = TInteger -> size_limit (ch_min ch) -> size_limit (ch_max ch) ->
    (value_ok ch value (allow_zero c v) = true -> exists n, int_literal n value /\ -2147483648 <= n <= 2147483647) /\
    (ch_max ch <> None -> value_ok ch value (allow_zero c v) = true -> conforms ch zero value) /\
    (forall n, int_literal n value -> 0 <= n <= 2147483647 ->
       (value_ok ch value (allow_zero c v) = true <-> conforms ch zero value)).
Proof.
  intros ch c v value zero Z0 T L U.
  assert (ZE : allow_zero c v = zero).
  { apply eq_true_iff_eq. rewrite Z0. apply allow_zero_ok. }
  rewrite ZE.
  assert (NN : forall n, int_literal n value -> 0 <= n <= 2147483647 -> (value_ok ch value zero = true <-> conforms ch zero value)).
  { intros n I R. rewrite (value_ok_integer _ _ _ _ T I), (conforms_integer _ _ _ _ T I).
    destruct (Z.ltb_spec n int_min); [unfold int_min in *; lia|]. destruct (Z.ltb_spec int_max n); [unfold int_max in *; lia|]. cbn [orb].
    destruct (in_limits_nat ch n L U ltac:(unfold size_mod; lia)) as [IL (b & E)].
    destruct zero; cbn [andb].
    - destruct (Z.eqb_spec n 0); [tauto|]. rewrite <- IL, E. destruct b; intuition congruence.
    - rewrite <- IL, E. destruct b; intuition congruence. }
  split; [|split; [|exact NN]].
  - intros H. destruct (value_ok_integer_literal _ _ _ T H) as (n & I). exists n. split; auto.
    rewrite (value_ok_integer _ _ _ _ T I) in H. destruct (Z.ltb_spec n int_min); [discriminate|]. destruct (Z.ltb_spec int_max n); [discriminate|].
    unfold int_min, int_max in *. lia.
  - intros MX H. destruct (value_ok_integer_literal _ _ _ T H) as (n & I). assert (H' := H). rewrite (value_ok_integer _ _ _ _ T I) in H.
    destruct (Z.ltb_spec n int_min); [discriminate|]. destruct (Z.ltb_spec int_max n); [discriminate|]. cbn [orb] in H.
    destruct (Z_lt_le_dec n 0) as [NG|NG].
    + exfalso. destruct (Z.eqb_spec n 0); [lia|]. rewrite andb_false_r in H.
      rewrite (in_limits_neg ch n L U) in H by lia. destruct (ch_max ch); [discriminate|congruence].
    + apply (NN n I); [unfold int_max in *; lia|exact H'].
Qed.
Print Assumptions integer_values_partial.

Example integer_values_ex :
  size_limit (ch_min number_char) /\ size_limit (ch_max number_char) /\ ch_max number_char <> None /\
  value_ok number_char "42" false = true /\ value_ok number_char "101" false = false /\ value_ok number_char "-1" false = false /\
  value_ok number_char "4.2" false = false.
Proof.
  split; [exists 0; split; [lia|reflexivity]|]. split; [exists 100; split; [lia|reflexivity]|]. split; [discriminate|]. vm_compute. auto.
Qed.

(** The integer is compared as an unsigned 64-bit number: without a maximum, a negative value passes a minimum of zero ... *)
Theorem integer_below_minimum_refuted :
  exists ch value n, ch_type ch = TInteger /\ ch_min ch = Some 0%Q /\ int_literal n value /\ n < 0 /\ value_ok ch value false = true.
Proof.
  exists (mkChar TInteger (Some 0%Q) None None false), "-5", (-5). repeat (split; [reflexivity|]). split; [|split; [lia|vm_compute; reflexivity]].
  apply (lit_minus 5 "5"). apply (digits_one 5). lia.
Qed.
Print Assumptions integer_below_minimum_refuted.

(** ... and with limits on both sides of zero negative values are refused. *)
Theorem integer_negative_limits_refuted :
  exists ch value n, ch_type ch = TInteger /\ ch_min ch = Some (-10 # 1)%Q /\ ch_max ch = Some (10 # 1)%Q /\
    int_literal n value /\ -10 <= n <= 10 /\ value_ok ch value false = false.
Proof.
  exists (mkChar TInteger (Some (-10 # 1)%Q) (Some (10 # 1)%Q) None false), "-5", (-5). repeat (split; [reflexivity|]).
  split; [apply (lit_minus 5 "5"); apply (digits_one 5); lia|]. split; [lia|vm_compute; reflexivity].
Qed.
Print Assumptions integer_negative_limits_refuted.

(** A maximum that is not whole is rounded up. *)
Theorem fractional_limit_refuted :
  exists ch value n, ch_type ch = TInteger /\ ch_max ch = Some (5 # 2)%Q /\ int_literal n value /\ ~ at_most (ch_max ch) (inject_Z n) /\
    value_ok ch value false = true.
Proof.
  exists (mkChar TInteger None (Some (5 # 2)%Q) None false), "3", 3. repeat (split; [reflexivity|]).
  split; [apply (lit_plain 3 "3"); apply (digits_one 3); lia|]. split; [cbn; unfold Qle; cbn; lia|vm_compute; reflexivity].
Qed.
Print Assumptions fractional_limit_refuted.

(** Everything ever stored through a set has been validated: if all stored values of settable attributes pass the
    validation at the beginning, they do so after any history. *)
Theorem stored_values_stay_valid :
  forall d ops, tables_ok d ->
    (forall k a r m s, stored d k a r -> a_mut r <> ReadOnly -> known d k m -> a_value r = Some s -> value_ok (m_char m) s (allow_zero (fst k) (snd k)) = true) ->
    forall k a r m s, stored (run_ops d ops) k a r -> a_mut r <> ReadOnly -> known (run_ops d ops) k m -> a_value r = Some s ->
      value_ok (m_char m) s (allow_zero (fst k) (snd k)) = true.
Proof. intros d ops T H. apply (run_ops_valid ops d T H). Qed.
Print Assumptions stored_values_stay_valid.

Example stored_values_stay_valid_ex :
  forall k a r m s, stored station k a r -> a_mut r <> ReadOnly -> known station k m -> a_value r = Some s ->
    value_ok (m_char m) s (allow_zero (fst k) (snd k)) = true.
Proof.
  intros k a r m s (I & KE & _) N K E. cbn in I, K. subst k.
  repeat destruct I as [I|I]; try contradiction; subst r; cbn in *; try congruence; injection E as <-;
    repeat destruct K as [K|K]; try contradiction; inversion K; subst; vm_compute; reflexivity.
Qed.

(** ** C30 *)

(** The full inventory lists every attribute of every variable, the configuration inventory every attribute that is not
    read-only; each variable once, with its characteristics, with the current values except those of write-only
    attributes. *)
Theorem inventory_exact :
  forall d b, tables_ok d -> b <> SummaryInventory -> report_exact d (base_selects b) shows_safely (get_base_report_data d b).
Proof. intros d b T N. assert (H := base_report_ok d b T). destruct b; try contradiction; exact H. Qed.
Print Assumptions inventory_exact.

Theorem inventory_has_characteristics :
  forall d b rp, b <> SummaryInventory -> In rp (get_base_report_data d b) -> rp_char rp <> None.
Proof.
  intros d b rp N I. unfold get_base_report_data in I. apply in_flat_map in I. destruct I as (e & _ & I).
  destruct (base_attrs b (fst e) (get_variable_attributes d (fst e) None)); [contradiction|]. destruct I as [<- | []]. cbn [rp_char].
  destruct b; try contradiction; discriminate.
Qed.
Print Assumptions inventory_has_characteristics.

Example inventory_ex :
  map (fun r => (rp_key r, map ar_value (rp_attrs r))) (get_base_report_data station ConfigurationInventory)
  = [(interval_key, [Some "60"; Some "60"]); (password_key, [None])] /\
  List.length (get_base_report_data station FullInventory) = 5%nat.
Proof. vm_compute. auto. Qed.

(** The summary lists exactly the availability of the station, EVSEs and connectors and the raised alarms. *)
Theorem summary_exact :
  forall d, tables_ok d -> report_exact d (base_selects SummaryInventory) shows_plainly (get_base_report_data d SummaryInventory).
Proof. intros d T. exact (base_report_ok d SummaryInventory T). Qed.
Print Assumptions summary_exact.

Example summary_ex : map rp_key (get_base_report_data station SummaryInventory) = [availability_key].
Proof. vm_compute. reflexivity. Qed.

(** A custom report lists exactly the variables of a component that satisfies one of the criteria (if any are given) and
    which one of the requested components and variables selects (if any are given). Values of write-only attributes are
    not withheld (see [custom_report_reveals_refuted]). *)
Theorem custom_report_exact_partial :
  forall d cvs crs, tables_ok d ->
    report_exact d (fun k _ => custom_selects d cvs crs k) shows_plainly (get_custom_report_data d cvs crs).
Proof. exact custom_report_ok. Qed.
Print Assumptions custom_report_exact_partial.

Example custom_report_ex :
  map rp_key (get_custom_report_data station (Some [(mkC "EVSE" None None, Some (mkV "AvailabilityState" None));
                                                    (fst interval_key, None)]) None) = [interval_key; availability_key] /\
  map rp_key (get_custom_report_data station None (Some [CrProblem])) = [] /\
  map rp_key (get_custom_report_data station (Some [(fst interval_key, None)]) (Some [CrProblem; CrEnabled])) = [interval_key].
Proof. vm_compute. auto. Qed.

(** No report reveals a write-only value: false for custom reports ... *)
Theorem custom_report_reveals_refuted :
  exists d cvs rp x r s, tables_ok d /\ In rp (get_custom_report_data d cvs None) /\ In x (rp_attrs rp) /\ ar_value x = Some s /\
    stored d (rp_key rp) (ar_type x) r /\ a_mut r = WriteOnly /\ a_value r = Some s.
Proof.
  exists station, (Some [(fst password_key, None)]). eexists (mkRep password_key _ _), (mkAR Actual _ WriteOnly true false), _, _.
  split; [exact station_tables|]. split; [vm_compute; left; reflexivity|]. split; [left; reflexivity|]. split; [reflexivity|].
  split; [split; [do 3 right; left; reflexivity|split; reflexivity]|]. split; reflexivity.
Qed.
Print Assumptions custom_report_reveals_refuted.

(** ... and for the summary, should an alarm be write-only. *)
Theorem summary_reveals_refuted :
  exists d rp x r s, tables_ok d /\ In rp (get_base_report_data d SummaryInventory) /\ In x (rp_attrs rp) /\ ar_value x = Some s /\
    stored d (rp_key rp) (ar_type x) r /\ a_mut r = WriteOnly /\ a_value r = Some s.
Proof.
  set (k := (mkC "Lock" None None, mkV "Problem" None)).
  exists (mkDm [(k, mkMeta (mkChar TBoolean None None None false) [])] [mkA k Actual (Some "true") WriteOnly true false None] [] 0).
  eexists (mkRep k _ _), (mkAR Actual _ WriteOnly true false), _, _.
  split; [split; cbn; nodup|]. split; [vm_compute; left; reflexivity|]. split; [left; reflexivity|]. split; [reflexivity|].
  split; [split; [left; reflexivity|split; reflexivity]|]. split; reflexivity.
Qed.
Print Assumptions summary_reveals_refuted.

(** ** C31 *)

(** Over any history in which a request that names an id names a custom monitor of the same variable, and in which
    clearing the custom monitors for a new monitoring base does not fail in the database: memory and database agree, ids
    are unique, an id never passes to another variable, and the monitors built in or preconfigured are there as
    before, up to their delta references - and no others. *)
Theorem monitors_stay_consistent_partial :
  forall d ops, tables_ok d -> monitors_ok d -> ops_guard d ops -> d_seq (run_ops d ops) <= 2147483647 ->
    let d' := run_ops d ops in
    monitors_ok d' /\
    (forall k mo, In (k, mo) (d_mons d) -> mo_config mo <> Custom -> exists mo', In (k, mo') (d_mons d') /\ same_setting mo mo') /\
    (forall k mo', In (k, mo') (d_mons d') -> mo_config mo' <> Custom -> exists mo, In (k, mo) (d_mons d) /\ same_setting mo mo') /\
    (forall k k' mo mo', In (k, mo) (d_mons d) -> In (k', mo') (d_mons d') -> mo_id mo = mo_id mo' -> k' = k) /\
    (forall k mo', In (k, mo') (d_mons d') -> d_seq d < mo_id mo' \/ exists mo, In (k, mo) (d_mons d) /\ mo_id mo = mo_id mo').
Proof.
  intros d ops T M G S d'. destruct (run_ops_ok ops d T M G S) as ((M' & _ & P & Q & R) & _). fold d' in M', P, Q, R.
  split; auto. split; auto. split; auto. split; auto.
  intros k k' mo mo' I I' E. destruct (R k' mo' I') as [L|(mo0 & I0 & E0)].
  - exfalso. assert (B : 0 <= mo_id mo <= d_seq d) by (destruct M as (_ & _ & _ & B & _); eapply B; eauto). lia.
  - destruct (mon_same d k' k mo0 mo M I0 I) as [-> _]; auto. lia.
Qed.
Print Assumptions monitors_stay_consistent_partial.

Lemma no_id d q : q_id q = None -> own_id d q.
Proof. intros N i k mo E. congruence. Qed.

Definition warm : monitor_req := mkReq (fst temperature_key) (snd temperature_key) None 6 None UpperThreshold (mkF false 60000000).
Definition swing : monitor_req := mkReq (fst temperature_key) (snd temperature_key) None 7 (Some true) Delta (mkF false 5500000).

Example monitors_stay_consistent_ex :
  let ops := [OSetMonitors [warm; swing] []; OClearMonitors [3; 4; 9] []; OSetVariables [mkSet (fst interval_key) (snd interval_key) None "5"] (fun _ => true) [];
              OReference 5 "30" true] in
  ops_guard station ops /\ d_seq (run_ops station ops) <= 2147483647 /\
  map (fun e => (mo_id (snd e), mo_config (snd e), mo_ref (snd e))) (d_mons (run_ops station ops)) = [(3, HardWired, None); (5, Custom, Some "21.5")].
Proof.
  cbv zeta. split; [|split; [vm_compute; discriminate|vm_compute; reflexivity]].
  cbn [ops_guard op_guard own_ids]. repeat match goal with |- _ /\ _ => split end; first [exact I | apply no_id; reflexivity].
Qed.

(** One request for a monitor. Accepted: the monitor asked for is there, under a fresh id or the one named, with the
    current value as its delta reference, in memory and database; all others are untouched. Not accepted: nothing
    happens. *)
Theorem set_monitor_exact_partial :
  forall d q cfg ok d' st i, tables_ok d -> monitors_ok d -> own_id d q -> set_monitor d q cfg ok = (d', st, i) -> d_seq d' <= 2147483647 ->
    (st = MAccepted -> exists mo, i = Some (mo_id mo) /\ requested q cfg mo /\ reference_of d q mo /\ monitors_ok d' /\
       monitor_put d d' (q_comp q, q_var q) mo /\
       match q_id q with
       | None => forall k mo', In (k, mo') (d_mons d) -> mo_id mo' <> mo_id mo
       | Some j => mo_id mo = j /\ exists mo0, In ((q_comp q, q_var q), mo0) (d_mons d) /\ mo_id mo0 = j
       end) /\
    (st <> MAccepted -> d' = d /\ i = q_id q).
Proof.
  intros d q cfg ok d' st i T M O E S. assert (C := set_monitor_cases d q cfg ok T M O). rewrite E in C.
  destruct (C S) as [(-> & m & mo & K & V & OK & -> & ID & RQ & RF & P & M' & PREV)|(N & -> & ->)].
  - split; [intros _|congruence]. exists mo. do 5 (split; [solve [auto]|]).
    unfold row_id in ID. destruct (q_id q) as [j|].
    + split; [auto|]. destruct (PREV j eq_refl) as (mo0 & I & J). exists mo0. auto.
    + intros k mo' I. destruct M as (_ & _ & _ & B & _). assert (X := B k mo' I). lia.
  - split; [contradiction|auto].
Qed.
Print Assumptions set_monitor_exact_partial.

Example set_monitor_ex :
  own_id station warm /\ snd (set_monitor station warm Custom true) = Some 4 /\
  snd (fst (set_monitor station warm Custom true)) = MAccepted /\
  snd (fst (set_monitor station (mkReq (fst temperature_key) (snd temperature_key) None 5 None UpperThreshold (mkF false 60000000)) Custom true)) = MDuplicate.
Proof. split; [apply no_id; reflexivity|]. vm_compute. auto. Qed.

(** The decision about a request without id is exactly the one of the specification. *)
Theorem new_monitor_decided :
  forall d q cfg ok st, tables_ok d -> q_id q = None ->
    (new_monitor_outcome d q (fun ch => monitor_value_ok ch q = true) ok st <-> snd (fst (set_monitor d q cfg ok)) = st).
Proof.
  intros d q cfg ok st T N. assert (H := new_monitor_ok d q cfg ok T N). split.
  - intros X. eapply outcome_fun; eauto.
  - intros <-. exact H.
Qed.
Print Assumptions new_monitor_decided.

(** On a decimal variable: it supports monitoring, a delta is not negative, and a threshold is within the limits. *)
Theorem decimal_monitor_values :
  forall ch q, ch_type ch = TDecimal -> 0 <= f_micro (q_value q) ->
    (monitor_value_ok ch q = true <->
     ch_monitoring ch = true /\ (q_type q = Delta -> f_neg (q_value q) = false) /\
     (q_type q = Periodic \/ q_type q = PeriodicClockAligned \/
      (float_range (fvalue (q_value q)) /\
       (zero_allowed (q_comp q) (q_var q) /\ (fvalue (q_value q) == 0)%Q \/
        at_least (ch_min ch) (fvalue (q_value q)) /\ at_most (ch_max ch) (fvalue (q_value q)))))).
Proof.
  intros ch q T P. rewrite (monitor_decimal ch q T P). unfold monitor_fits. split.
  - intros (A & B & C). split; auto. split; auto. destruct C as [C|[C|[(_ & C & _)|(_ & _ & C)]]]; auto. contradiction.
  - intros (A & B & C). split; auto. split; auto. destruct C as [C|[C|C]]; auto.
    destruct (q_type q); auto; right; right; right; (split; [discriminate|split; [discriminate|exact C]]).
Qed.
Print Assumptions decimal_monitor_values.

Example decimal_monitor_ex : monitor_value_ok decimal_char warm = true /\
  monitor_value_ok decimal_char (mkReq (fst temperature_key) (snd temperature_key) None 6 None LowerThreshold (mkF true 1)) = false.
Proof. vm_compute. auto. Qed.

(** Monitors for thresholds and deltas of other variables: not for integers (the text of the value always has a decimal
    point) - this is a claim one would expect to be false. *)
Theorem integer_thresholds_rejected_refuted :
  exists ch q, ch_type ch = TInteger /\ ch_monitoring ch = true /\ q_type q = UpperThreshold /\ (fvalue (q_value q) == inject_Z 50)%Q /\
    at_least (ch_min ch) (inject_Z 50) /\ at_most (ch_max ch) (inject_Z 50) /\ monitor_value_ok ch q = false.
Proof.
  exists number_char, (mkReq (fst interval_key) (snd interval_key) None 6 None UpperThreshold (mkF false 50000000)).
  repeat (split; [reflexivity|]). split; [vm_compute; discriminate|]. split; [vm_compute; discriminate|]. vm_compute. reflexivity.
Qed.
Print Assumptions integer_thresholds_rejected_refuted.

Theorem integer_monitors_periodic_only :
  forall ch q, ch_type ch = TInteger ->
    (monitor_value_ok ch q = true <-> ch_monitoring ch = true /\ (q_type q = Periodic \/ q_type q = PeriodicClockAligned)).
Proof.
  intros ch q T. split.
  - intros H. split; [apply monitor_value_ok_fits in H; apply H|]. eapply monitor_integer; eauto.
  - intros [A B]. apply monitor_value_ok_fits. split; auto. split; [destruct B; congruence|]. tauto.
Qed.
Print Assumptions integer_monitors_periodic_only.

(** Clearing by id: the answer tells exactly whether the monitor exists and may be removed; only then it is removed, from
    memory and database. *)
Theorem clear_monitor_exact :
  forall d i ap ok d' st, monitors_ok d -> clear_monitor d i ap ok = (d', st) ->
    (st = CNotFound <-> forall k mo, In (k, mo) (d_mons d) -> mo_id mo <> i) /\
    (st = CAccepted <-> ok = true /\ exists k mo, In (k, mo) (d_mons d) /\ mo_id mo = i /\ (ap = true \/ mo_config mo = Custom)) /\
    (st = CAccepted -> monitors_ok d' /\ monitors_removed d d' (fun mo => mo_id mo = i)) /\
    (st <> CAccepted -> d' = d).
Proof.
  intros d i ap ok d' st M E. assert (C := clear_monitor_cases d i ap ok M). rewrite E in C. destruct st.
  - destruct C as (O & M' & R & k & mo & I & J & A). split; [split; [discriminate|intros X; exfalso; apply (X k mo I J)]|].
    split; [split; auto; intros _; split; auto; exists k, mo; auto|]. split; auto. congruence.
  - destruct C as (-> & k & mo & I & J & A). split; [split; [discriminate|intros X; exfalso; apply (X k mo I J)]|]. split; [|split; [discriminate|auto]].
    split; [discriminate|]. intros (O & k' & mo' & I' & J' & A'). exfalso. destruct (mon_same d k k' mo mo' M I I') as [-> ->]; [lia|].
    destruct A as [A|[A A2]]; [congruence|]. destruct A'; congruence.
  - destruct C as (-> & N). split; [tauto|]. split; [|split; [discriminate|auto]]. split; [discriminate|].
    intros (_ & k & mo & I & J & _). exfalso. apply (N k mo I J).
Qed.
Print Assumptions clear_monitor_exact.

Example clear_monitor_ex :
  snd (clear_monitor station 3 false true) = CRejected /\ snd (clear_monitor station 3 true true) = CAccepted /\
  snd (clear_monitor station 4 true true) = CNotFound.
Proof. vm_compute. auto. Qed.

(** Clearing the custom monitors removes exactly these and says how many there were. *)
Theorem clear_custom_exact_partial :
  forall d d' n, monitors_ok d -> clear_custom_monitors d true = (d', n) ->
    monitors_ok d' /\ monitors_removed d d' (fun mo => mo_config mo = Custom) /\
    exists l, NoDup l /\ (forall e, In e l <-> In e (d_mons d) /\ mo_config (snd e) = Custom) /\ n = Z.of_nat (List.length l).
Proof.
  intros d d' n M E. assert (C := clear_custom_ok d M). rewrite E in C. destruct C as (M' & R & ->). split; auto. split; auto.
  exists (filter (fun e : key * monitor => cfg_eqb (mo_config (snd e)) Custom) (d_mons d)). split; [|split; auto].
  - apply NoDup_filter. destruct M as (_ & _ & N & _). unfold ids in N. apply NoDup_map_inv in N. exact N.
  - intros e. rewrite filter_In. destruct (mo_config (snd e)); cbn; intuition congruence.
Qed.
Print Assumptions clear_custom_exact_partial.

Example clear_custom_ex :
  snd (clear_custom_monitors (run_ops station [OSetMonitors [warm; swing] []]) true) = 2.
Proof. vm_compute. reflexivity. Qed.

(** SetMonitoringBase: with All nothing happens to the monitors, otherwise exactly the custom ones are removed; when the
    value cannot be set, nothing changes at all. *)
Theorem set_monitoring_base_exact_partial :
  forall d b ok d' acc, tables_ok d -> monitors_ok d ->
    handle_set_monitoring_base_req d b ok true true = (d', acc) ->
    (acc = true -> (b = MbAll -> monitors_ok d' /\ d_mons d' = d_mons d) /\
                   (b <> MbAll -> monitors_ok d' /\ forall k mo, In (k, mo) (d_mons d') <-> In (k, mo) (d_mons d) /\ mo_config mo <> Custom)) /\
    (acc = false -> d' = d) /\
    (acc = true <-> snd (fst (set_value d (ctrl "MonitoringCtrlr") (plain "ActiveMonitoringBase") Actual
                                 (match b with MbAll => "All" | MbFactoryDefault => "FactoryDefault" | MbHardWiredOnly => "HardWiredOnly" end)
                                 "csms" true ok true)) = Accepted).
Proof.
  intros d b ok d' acc T M H. unfold handle_set_monitoring_base_req in H. fold (base_name b).
  assert (C := set_value_cases d (ctrl "MonitoringCtrlr") (plain "ActiveMonitoringBase") Actual (base_name b) "csms" true ok true T).
  assert (F := set_value_frame d (ctrl "MonitoringCtrlr") (plain "ActiveMonitoringBase") Actual (base_name b) "csms" true ok true).
  destruct (set_value d (ctrl "MonitoringCtrlr") (plain "ActiveMonitoringBase") Actual (base_name b) "csms" true ok true) as [[d1 st] ev].
  cbn [fst snd] in *. assert (E1 := evolves_frame d d1 M F). destruct F as (F1 & F2 & F3).
  assert (R : st <> Accepted -> (d', acc) = (d1, false)) by (intros N; destruct st; congruence).
  destruct C as [(-> & C)|(N & -> & C)].
  - split; [|split; [|split; [reflexivity|intros _]]].
    + intros _. assert (X := clear_custom_ok d1 ltac:(apply E1)). destruct b; cbn [fst] in H.
      * injection H as <- <-. split; [|congruence]. intros _. split; [apply E1|congruence].
      * destruct (clear_custom_monitors d1 true) as [d2 n] eqn:E. cbn [fst] in *. injection H as <- <-. split; [congruence|]. intros _.
        destruct X as (X1 & (_ & _ & X2) & _). split; [exact X1|]. intros k mo. rewrite X2. rewrite F2. tauto.
      * destruct (clear_custom_monitors d1 true) as [d2 n] eqn:E. cbn [fst] in *. injection H as <- <-. split; [congruence|]. intros _.
        destruct X as (X1 & (_ & _ & X2) & _). split; [exact X1|]. intros k mo. rewrite X2. rewrite F2. tauto.
    + intros ->. destruct b; congruence.
    + destruct b; congruence.
  - specialize (R N). injection R as -> ->. split; [discriminate|]. split; [reflexivity|]. split; [discriminate|contradiction].
Qed.
Print Assumptions set_monitoring_base_exact_partial.

Example set_monitoring_base_ex :
  let d := run_ops station [OSetMonitors [warm; swing] []] in
  let f b := let '(d', a) := handle_set_monitoring_base_req d b true true true in (a, List.length (d_mons d')) in
  map f [MbAll; MbFactoryDefault; MbHardWiredOnly] = [(true, 3%nat); (true, 1%nat); (true, 1%nat)].
Proof. vm_compute. reflexivity. Qed.

(** The reference of a monitor is updated in memory and database, and nothing else changes, or the call fails and nothing
    changes. *)
Theorem reference_update_exact :
  forall d i r ok d' done, monitors_ok d -> update_monitor_reference d i r ok = (d', done) ->
    (done = true -> monitors_ok d' /\ d_attrs d' = d_attrs d /\ d_seq d' = d_seq d /\
       forall k mo, In (k, mo) (d_mons d') <->
         exists mo0, In (k, mo0) (d_mons d) /\
           (mo_id mo0 <> i /\ mo = mo0 \/ mo_id mo0 = i /\ same_setting mo0 mo /\ mo_ref mo = Some r)) /\
    (done = false -> d' = d) /\
    (forall k mo m, In (k, mo) (d_mons d) -> mo_id mo = i -> known d k m -> ok = true -> mo_type mo = Delta ->
       ch_type (m_char m) <> TDecimal -> ch_type (m_char m) <> TInteger -> done = true) /\
    (forall k mo m, In (k, mo) (d_mons d) -> mo_id mo = i -> known d k m -> ch_type (m_char m) = TDecimal \/ ch_type (m_char m) = TInteger -> done = false) /\
    ((forall k mo, In (k, mo) (d_mons d) -> mo_id mo <> i) -> done = false).
Proof.
  intros d i r ok d' done M E. assert (C := reference_cases d i r ok M). rewrite E in C.
  destruct C as [(-> & -> & M' & (A & B & R) & k0 & mo0 & m0 & I0 & J0 & K0 & TD)|(-> & -> & H)].
  - split; [|split; [discriminate|split; [auto|split]]].
    + intros _. split; auto. split; auto. split; auto. intros k mo. rewrite R. split; intros (x & I & H); exists x; (split; [auto|]).
      * destruct H as [H|[H ->]]; [left; auto|right; split; auto]. split; [repeat split|reflexivity].
      * destruct H as [H|(H & S & F)]; [left; auto|right; split; auto]. destruct S as (S1 & S2 & S3 & S4 & S5 & S6).
        destruct x, mo. cbn in *. unfold with_ref. cbn. congruence.
    + intros k mo m I J K D. exfalso. destruct (mon_same d k k0 mo mo0 M I I0) as [-> ->]; [lia|].
      rewrite (known_fun d _ _ _ ltac:(apply M) K K0) in D. unfold trivial_delta in TD. destruct D as [D|D]; rewrite D in TD; discriminate.
    + intros N. exfalso. apply (N k0 mo0 I0 J0).
  - split; [discriminate|]. split; auto. split; [|auto]. intros k mo m I J K OK D N1 N2. exfalso.
    destruct H as [H|H]; [congruence|]. specialize (H k mo m I J K). unfold trivial_delta in H. rewrite D in H. destruct (ch_type (m_char m)); try discriminate; contradiction.
Qed.
Print Assumptions reference_update_exact.

(** What the CSMS is told: exactly the monitors of the selected variables and kinds. *)
Theorem get_monitors_exact :
  forall d l cvs, monitors_ok d ->
    monitors_reported d (fun k => cvs = [] \/ exists cv, In cv cvs /\ fst cv = fst k /\ (forall v, snd cv = Some v -> v = snd k))
                      (crits_select l) (get_monitors d l cvs).
Proof. intros. apply get_monitors_ok; auto. Qed.
Print Assumptions get_monitors_exact.

Theorem get_periodic_monitors_exact :
  forall d, monitors_ok d ->
    monitors_reported d (fun _ => True) (fun t => t = Periodic \/ t = PeriodicClockAligned) (get_periodic_monitors d).
Proof. exact get_periodic_ok. Qed.
Print Assumptions get_periodic_monitors_exact.

Example get_monitors_ex :
  let d := run_ops station [OSetMonitors [warm; swing] []] in
  get_monitors d [McThreshold] [(fst temperature_key, None); (fst interval_key, Some (snd interval_key))]
  = [(temperature_key, [hot; mkMon 4 6 false UpperThreshold (mkF false 60000000) Custom None])] /\ get_periodic_monitors d = [].
Proof. vm_compute. auto. Qed.

(** After a restart the monitors loaded from a database with unique ids agree with it; nothing is lost. *)
Theorem restart_keeps_monitors :
  forall d, monitors_ok d -> monitors_ok (load_monitors d) /\ d_mons (load_monitors d) = d_mons d /\
    forall k i mo, in_memory (load_monitors d) k i mo <-> in_memory d k i mo.
Proof.
  intros d M. assert (M' : monitors_ok (load_monitors d)).
  { assert (X := M). destruct X as (M0 & M1 & M2 & M3 & M4 & M5). apply load_ok; auto.
    intros k mo I. assert (IM : in_memory d k (mo_id mo) mo) by (apply M5; auto). destruct IM as (m & K & _). eauto. }
  split; auto. split; auto. intros k i mo.
  destruct M as (_ & _ & _ & _ & _ & M5). destruct M' as (_ & _ & _ & _ & _ & M5'). rewrite M5, M5'. reflexivity.
Qed.
Print Assumptions restart_keeps_monitors.

(** The guards of the first theorem are needed. A request naming the id of another variable's monitor is accepted; then
    both variables hold a monitor with this id in memory, while the database has moved it. *)
Theorem monitor_id_moves_refuted :
  exists d q d', tables_ok d /\ monitors_ok d /\ set_monitor d q Custom true = (d', MAccepted, Some 3) /\
    (exists mo, in_memory d' temperature_key 3 mo) /\ (exists mo, in_memory d' interval_key 3 mo) /\
    (forall mo, ~ In (temperature_key, mo) (d_mons d')) /\ (exists mo, In (interval_key, mo) (d_mons d')).
Proof.
  exists station, (mkReq (fst interval_key) (snd interval_key) (Some 3) 5 None Periodic (mkF false 60000000)).
  eexists. split; [exact station_tables|]. split; [exact station_monitors|]. split; [vm_compute; reflexivity|].
  split; [eexists _, _; split; [right; left; reflexivity|left; reflexivity]|]. split; [eexists _, _; split; [left; reflexivity|left; reflexivity]|].
  split; [intros mo [X|[]]; discriminate|eexists; left; reflexivity].
Qed.
Print Assumptions monitor_id_moves_refuted.

(** A request naming the id of a built-in monitor turns it into a custom one, which can then be removed. *)
Theorem hard_wired_monitor_removable_refuted :
  exists d q k mo, tables_ok d /\ monitors_ok d /\ In (k, mo) (d_mons d) /\ mo_config mo = HardWired /\
    q_id q = Some (mo_id mo) /\ (q_comp q, q_var q) = k /\
    d_mons (run_ops d [OSetMonitors [q] []; OClearMonitors [mo_id mo] []]) = [].
Proof.
  exists station, (mkReq (fst temperature_key) (snd temperature_key) (Some 3) 5 None UpperThreshold (mkF false 90000000)), temperature_key, hot.
  split; [exact station_tables|]. split; [exact station_monitors|]. split; [left; reflexivity|]. repeat (split; [reflexivity|]). vm_compute. reflexivity.
Qed.
Print Assumptions hard_wired_monitor_removable_refuted.

(** A request naming an id can create a second monitor of the same type and severity on a variable. *)
Theorem duplicate_with_id_refuted :
  exists d ops, tables_ok d /\ monitors_ok d /\ ops_guard d ops /\
    map (fun e => (fst e, mo_type (snd e), mo_severity (snd e))) (d_mons (run_ops d ops))
    = [(temperature_key, UpperThreshold, 5); (temperature_key, UpperThreshold, 5)].
Proof.
  exists station, [OSetMonitors [warm; mkReq (fst temperature_key) (snd temperature_key) (Some 4) 5 None UpperThreshold (mkF false 70000000)] []].
  split; [exact station_tables|]. split; [exact station_monitors|]. split; [|vm_compute; reflexivity].
  cbn [ops_guard op_guard own_ids]. split; [|exact I]. split; [apply no_id; reflexivity|]. split; [|exact I].
  intros i k mo E I J. vm_compute in I. injection E as <-. destruct I as [I|[I|[]]]; inversion I; subst; [discriminate J|]. split; reflexivity.
Qed.
Print Assumptions duplicate_with_id_refuted.

(** If the database fails to delete the custom monitors, memory forgets them all the same; they are back after a
    restart. *)
Theorem failed_clear_forgets_refuted :
  exists d d' n, monitors_ok d /\ clear_custom_monitors d false = (d', n) /\ ~ monitors_ok d'.
Proof.
  exists (run_ops station [OSetMonitors [warm] []]). eexists _, _.
  split; [|split; [reflexivity|]].
  - refine (proj1 (proj1 (run_ops_ok [OSetMonitors [warm] []] station station_tables station_monitors _ _))).
    + cbn [ops_guard op_guard own_ids]. repeat match goal with |- _ /\ _ => split end; first [exact I | apply no_id; reflexivity].
    + vm_compute. discriminate.
  - intros (_ & _ & _ & _ & _ & M5). specialize (M5 temperature_key 4 (mkMon 4 6 false UpperThreshold (mkF false 60000000) Custom None)).
    destruct M5 as [_ M5]. destruct M5 as (m & K & I); [split; [vm_compute; auto|reflexivity]|].
    unfold known in K. vm_compute in K. repeat destruct K as [K|K]; try contradiction; inversion K; subst; cbn in I; try contradiction.
    destruct I as [I|[]]; discriminate.
Qed.
Print Assumptions failed_clear_forgets_refuted.

(** A threshold monitor on a text variable gets a delta reference. *)
Theorem reference_of_threshold_refuted :
  exists d i r d' mo, monitors_ok d /\ update_monitor_reference d i r true = (d', true) /\ In (availability_key, mo) (d_mons d') /\
    mo_type mo = Periodic /\ mo_ref mo = Some r.
Proof.
  set (mo := mkMon 1 5 false Periodic (mkF false 60000000) Preconfigured None).
  set (d := load_monitors (mkDm [(availability_key, mkMeta text_char [])] [] [(availability_key, mo)] 1)).
  exists d, 1, "Occupied". eexists _, _. split.
  - apply load_ok; cbn.
    + lia.
    + nodup.
    + nodup.
    + intros k m [E|[]]. inversion E. subst. cbn. lia.
    + intros k m [E|[]]. inversion E. subst. eexists. left. reflexivity.
  - split; [vm_compute; reflexivity|]. split; [left; reflexivity|]. split; reflexivity.
Qed.
Print Assumptions reference_of_threshold_refuted.
