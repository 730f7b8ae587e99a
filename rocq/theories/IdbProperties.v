(** Properties C87 to C90: how the device model database of an OCPP 2.x station follows its configuration. *)
From Coq Require Import ZArith String List Bool Lia.
From Verif Require Import StrModel StrProofs IdbModel IdbSpec IdbProofs IdbProofs2 IdbProofs3 IdbProofs4 IdbProofs5 IdbProofs6 IdbProofs7
  IdbProofs8 IdbProofs9.
From Verif Require DmModel.
Import ListNotations.
Local Open Scope string_scope.
Local Open Scope list_scope.
Local Open Scope Z_scope.

(** ** An example *)
Definition ex_k : ckey := CK "EVSE" None (Some 1) None.
Definition ex_v : vkey := VK "Power" None.
Definition ex_chars : chars := Ch DmModel.TDecimal true (Some "W") None (Some 11000) None.
Definition ex_mon : mon := Mon 5 false DmModel.UpperThreshold DmModel.HardWired 100 None.
Definition ex_attr : cattr := CA (Some DmModel.Actual) None (Some DmModel.ReadWrite) None None.
Definition ex_target : cattr := CA (Some DmModel.Target) (Some "5") (Some DmModel.ReadOnly) None None.
Definition ex_var : cvar := CV ex_v ex_chars [ex_attr; ex_target] (Some "10") [ex_mon] None.
Definition ex_other : cvar := CV (VK "Enabled" (Some "a")) (Ch DmModel.TBoolean false None None None None)
  [CA (Some DmModel.Actual) (Some "true") (Some DmModel.ReadOnly) None None] None [] (Some "OCPP").
Definition ex_cfg : config := [(ex_k, [ex_var; ex_other]); (CK "Clock" None None None, [ex_other])].
(** Without the clock and the target, with a monitor changed and a variable added. *)
Definition ex_cfg2 : config :=
  [(CK "Fan" None None None, [ex_other]);
   (ex_k, [ex_other; CV ex_v ex_chars [ex_attr] (Some "12") [Mon 5 true DmModel.UpperThreshold DmModel.HardWired 100 None] None])].
Lemma ex_good_var : good_var ex_var.
Proof.
  constructor; cbn; try discriminate.
  - repeat constructor; cbn; intros H; intuition discriminate.
  - split; [lia|]. intros a [<- | [<- | []]]; cbn; [exact Logic.I | lia].
  - repeat constructor; cbn; intros H; intuition discriminate.
  - intros m [<- | []]. split; discriminate.
Qed.
Lemma ex_good_other : good_var ex_other.
Proof.
  constructor; cbn; try discriminate.
  - repeat constructor; cbn; intros H; intuition discriminate.
  - split; [exact Logic.I|]. intros a [<- | []]; cbn; lia.
  - constructor.
  - intros m [].
Qed.
Lemma ex_good : good_config ex_cfg.
Proof.
  constructor.
  - repeat constructor; cbn; intros H; intuition discriminate.
  - intros e [<- | [<- | []]]; cbn; (split; [discriminate|]); (split; [discriminate|]); repeat constructor; cbn; intros H; intuition discriminate.
  - intros e c [<- | [<- | []]]; cbn; intros H; repeat (destruct H as [<- | H]); try destruct H; try exact ex_good_var; exact ex_good_other.
  - intros e c [<- | [<- | []]]; cbn; intros H; repeat (destruct H as [<- | H]); try destruct H; cbn; (split; [auto|]); intros a A;
      repeat (destruct A as [<- | A]); try destruct A; cbn; auto.
Qed.
Lemma ex_good2 : good_config ex_cfg2.
Proof.
  assert (V : good_var (CV ex_v ex_chars [ex_attr] (Some "12") [Mon 5 true DmModel.UpperThreshold DmModel.HardWired 100 None] None)).
  { constructor; cbn; try discriminate.
    - repeat constructor; cbn; intros H; intuition discriminate.
    - split; [lia|]. intros a [<- | []]; cbn; exact Logic.I.
    - repeat constructor; cbn; intros H; intuition discriminate.
    - intros m [<- | []]. split; discriminate. }
  constructor.
  - repeat constructor; cbn; intros H; intuition discriminate.
  - intros e [<- | [<- | []]]; cbn; (split; [discriminate|]); (split; [discriminate|]); repeat constructor; cbn; intros H; intuition discriminate.
  - intros e c [<- | [<- | []]]; cbn; intros H; repeat (destruct H as [<- | H]); try destruct H; try exact V; exact ex_good_other.
  - intros e c [<- | [<- | []]]; cbn; intros H; repeat (destruct H as [<- | H]); try destruct H; cbn; (split; [auto|]); intros a A;
      repeat (destruct A as [<- | A]); try destruct A; cbn; auto.
Qed.
Definition ex_custom : mon := Mon 3 false DmModel.Periodic DmModel.Custom 60 None.
Definition ex_history : list op :=
  [Start ex_cfg None; AddMonitor ex_k ex_v ex_custom; Write ex_k ex_v DmModel.Target "7" "csms"; Start ex_cfg (Some 1%nat)].
Lemma ex_good_history : Forall good_op ex_history.
Proof. unfold ex_history. repeat apply Forall_cons; try apply Forall_nil; cbn; try exact ex_good; try reflexivity; lia. Qed.

(** ** C87 *)
(** A value that somebody else than the configuration has set stays, with its source, whatever else is written, whatever monitors
    are set, and however often the station starts, dies while starting, and is configured anew, as long as the configuration has the
    attribute. *)
Theorem C87_values_set_by_others_survive : forall h1 h2 k v t x src,
  Forall good_op h1 -> Forall good_op h2 -> Z.of_nat (String.length x) <= 2500 -> set_by (Some src) ->
  attr_at (run empty_db h1) k v (Some t) <> [] -> Forall (spares k v t) h2 ->
  exists a, attr_at (run empty_db (h1 ++ Write k v t x src :: h2)) k v (Some t) = [a] /\ a_value a = Some x /\ a_src a = Some src.
Proof.
  intros h1 h2 k v t x src G1 G2 L SB N SP. pose proof (reachable_good h1 G1) as G. rewrite run_app. unfold run at 1. cbn [fold_left step].
  change (fold_left step h2) with (fun d => run d h2). cbv beta.
  destruct (attr_at_unique _ k v (Some t) G N) as (a & A). destruct (attr_at_write _ k v t x src a G A) as (b & B & BV & BS).
  apply (holds_run h2 (write_value k v t x src (run empty_db h1)) k v t (Some x) (Some src)); auto; [|exists b; auto].
  apply good_write; assumption.
Qed.
Example C87_values_set_by_others_survive_ex :
  attr_at (run empty_db [Start ex_cfg None]) ex_k ex_v (Some DmModel.Actual) <> []
  /\ Forall (spares ex_k ex_v DmModel.Actual) [Start ex_cfg2 None; Write ex_k ex_v DmModel.Target "7" "csms"; Start ex_cfg (Some 1%nat); Start ex_cfg None]
  /\ map (fun a => (a_value a, a_src a)) (attr_at (run empty_db ([Start ex_cfg None] ++ Write ex_k ex_v DmModel.Actual "3" "csms" ::
       [Start ex_cfg2 None; Write ex_k ex_v DmModel.Target "7" "csms"; Start ex_cfg (Some 1%nat); Start ex_cfg None])) ex_k ex_v (Some DmModel.Actual))
     = [(Some "3", Some "csms")].
Proof.
  split; [vm_compute; discriminate|]. split; [|vm_compute; reflexivity].
  assert (A : spares ex_k ex_v DmModel.Actual (Start ex_cfg None)).
  { exists ex_var, ex_attr. split; [exists [ex_var; ex_other]; cbn; auto|]. cbn. auto. }
  assert (B : spares ex_k ex_v DmModel.Actual (Start ex_cfg2 None)).
  { exists (CV ex_v ex_chars [ex_attr] (Some "12") [Mon 5 true DmModel.UpperThreshold DmModel.HardWired 100 None] None), ex_attr.
    split; [eexists; cbn; split; [right; left; reflexivity | cbn; auto]|]. cbn. auto. }
  repeat constructor; try exact A; try exact B; discriminate.
Qed.
(** An instance that is the empty text is stored as none, so that the component is taken for another one at the next start: the value
    is lost though the configuration has not changed. *)
Definition empty_inst (cfg : config) : config := map (fun e => (CK (k_name (fst e)) (Some "") (k_evse (fst e)) (k_conn (fst e)), snd e)) cfg.
Theorem C87_values_survive_with_empty_instances_refuted : exists cfg,
  map (fun a => (a_value a, a_src a))
    (attr_at (run empty_db [Start cfg None; Write ex_k ex_v DmModel.Actual "3" "csms"]) ex_k ex_v (Some DmModel.Actual)) = [(Some "3", Some "csms")]
  /\ map (fun a => (a_value a, a_src a))
    (attr_at (run empty_db [Start cfg None; Write ex_k ex_v DmModel.Actual "3" "csms"; Start cfg None]) ex_k ex_v (Some DmModel.Actual))
     = [(Some "10", Some "default")].
Proof. exists (empty_inst ex_cfg). split; vm_compute; reflexivity. Qed.
(** Values of a variable whose data type the configuration changes stay as well, be they of that type or not. *)
Theorem C87_kept_values_are_of_the_type_refuted : exists cfg cfg' a,
  good_config cfg /\ good_config cfg'
  /\ attr_at (run empty_db [Start cfg None; Write ex_k ex_v DmModel.Actual "2.5" "csms"; Start cfg' None]) ex_k ex_v (Some DmModel.Actual) = [a]
  /\ (exists r, vars_at (run empty_db [Start cfg None; Write ex_k ex_v DmModel.Actual "2.5" "csms"; Start cfg' None]) ex_k ex_v = [r]
                /\ ch_type (v_chars r) = DmModel.TBoolean)
  /\ a_value a = Some "2.5" /\ ~ typed DmModel.TBoolean (Some "2.5").
Proof.
  exists ex_cfg, [(ex_k, [CV ex_v (Ch DmModel.TBoolean true None None None None) [ex_attr] None [] None])].
  eexists. split; [exact ex_good|]. split.
  { constructor.
    - repeat constructor; cbn; intros H; intuition discriminate.
    - intros e [<- | []]; cbn. split; [discriminate|]. split; [discriminate|]. repeat constructor; cbn; intros H; intuition discriminate.
    - intros e c [<- | []] [<- | []]. constructor; cbn; try discriminate.
      + repeat constructor; cbn; intros H; intuition discriminate.
      + split; [exact Logic.I|]. intros a [<- | []]. exact Logic.I.
      + constructor.
      + intros m [].
    - intros e c [<- | []] [<- | []]. cbn. split; [exact Logic.I|]. intros a [<- | []]. exact Logic.I. }
  split; [vm_compute; reflexivity|]. split; [eexists; split; vm_compute; reflexivity|]. split; [reflexivity|].
  intros [H|H]; [discriminate H | vm_compute in H; discriminate H].
Qed.

(** ** C88 *)
(** After every start the database has exactly the components, variables, attributes and monitors of the configuration. *)
Theorem C88_start_gives_the_configuration_partial : forall h cfg, Forall good_op h -> good_config cfg ->
  exists d', initialize cfg None (run empty_db h) = Done d' /\ reflects cfg (run empty_db h) d'.
Proof.
  intros h cfg G GC. destruct (initialize_reflects cfg _ (reachable_good h G) GC) as (d' & E & _ & R). exists d'. auto.
Qed.
Example C88_start_gives_the_configuration_partial_ex : Forall good_op ex_history /\ good_config ex_cfg2 /\ run empty_db ex_history <> empty_db.
Proof. split; [exact ex_good_history|]. split; [exact ex_good2 | vm_compute; discriminate]. Qed.
(** Of the files of a component the first custom one with properties counts, else the first standardized one. *)
Lemma read_config_from : forall files acc k vs,
  In (k, vs) (fold_left (fun acc f => match snd f with
                          | Some vs => if existsb (fun e : ckey * list cvar => same_ckey (fst e) (fst f)) acc then acc else acc ++ [(fst f, vs)]
                          | None => acc
                          end) files acc)
  <-> In (k, vs) acc \/ (~ In k (map fst acc) /\ first_of k files = Some vs).
Proof.
  induction files as [|[k' o] files IH]; intros acc k vs; cbn [fold_left].
  - unfold first_of; cbn. split; [auto | intros [H | [_ H]]; [exact H | discriminate H]].
  - rewrite IH. clear IH. unfold first_of. cbn [flat_map fst snd]. destruct o as [vs'|].
    + destruct (existsb (fun e => same_ckey (fst e) k') acc) eqn:E.
      * assert (KI : In k' (map fst acc)).
        { apply existsb_exists in E. destruct E as (e & E1 & E2). apply same_ckey_true in E2. rewrite <- E2. apply in_map, E1. }
        destruct (ckey_dec k' k) as [->|N]; [|reflexivity]. split; intros [H | [H _]]; auto; contradiction.
      * assert (KI : ~ In k' (map fst acc)).
        { intros K. apply in_map_iff in K. destruct K as (e & E1 & E2).
          assert (existsb (fun e => same_ckey (fst e) k') acc = true) by (apply existsb_exists; exists e; split; [exact E2 | apply same_ckey_true, E1]). congruence. }
        rewrite map_app, !in_app_iff. cbn [map In fst]. destruct (ckey_dec k' k) as [->|N].
        -- cbn [app hd_error]. split.
           ++ intros [[H | [H | []]] | [H _]]; [left; exact H | inversion H; subst; right; auto | tauto].
           ++ intros [H | [H1 H2]]; [tauto | inversion H2; subst; left; right; left; reflexivity].
        -- cbn [app]. split.
           ++ intros [[H | [H | []]] | [H1 H2]]; [tauto | inversion H; subst; congruence | right; tauto].
           ++ intros [H | [H1 H2]]; [tauto|]. right. split; [|exact H2]. intros [H | [H | []]]; [tauto | congruence].
    + destruct (ckey_dec k' k); reflexivity.
Qed.
Lemma read_config_in : forall files k vs, In (k, vs) (read_config files) <-> first_of k files = Some vs.
Proof. intros. unfold read_config. rewrite read_config_from. cbn. tauto. Qed.
Lemma read_config_nodup_from : forall files acc, NoDup (map fst acc) ->
  NoDup (map fst (fold_left (fun acc f => match snd f with
                          | Some vs => if existsb (fun e : ckey * list cvar => same_ckey (fst e) (fst f)) acc then acc else acc ++ [(fst f, vs)]
                          | None => acc
                          end) files acc)).
Proof.
  induction files as [|[k o] files IH]; intros acc H; cbn [fold_left]; [exact H|]. apply IH. cbn [fst snd].
  destruct o as [vs|]; [|exact H]. destruct (existsb (fun e => same_ckey (fst e) k) acc) eqn:E; [exact H|].
  rewrite map_app. cbn [map fst]. apply NoDup_Add with (a := k) (l := map fst acc).
  - replace (map fst acc) with (map fst acc ++ []) at 1 by apply app_nil_r. apply Add_app.
  - split; [exact H|]. intros K. apply in_map_iff in K. destruct K as (e & E1 & E2).
    assert (existsb (fun e => same_ckey (fst e) k) acc = true) by (apply existsb_exists; exists e; split; [exact E2 | apply same_ckey_true, E1]). congruence.
Qed.
Lemma read_config_nodup : forall files, NoDup (map fst (read_config files)).
Proof. intros files. apply read_config_nodup_from. constructor. Qed.
Theorem C88_custom_files_win : forall standardized custom,
  NoDup (map fst (all_configs standardized custom))
  /\ forall k vs, In (k, vs) (all_configs standardized custom)
     <-> match first_of k custom with Some c => vs = c | None => first_of k standardized = Some vs end.
Proof.
  intros s c. unfold all_configs.
  assert (IN : forall k, existsb (fun f => same_ckey (fst f) k) (read_config c) = true <-> first_of k c <> None).
  { intros k. rewrite existsb_exists. split.
    - intros ([k' vs] & A & B). apply same_ckey_true in B. cbn [fst] in B. subst k'. apply read_config_in in A. congruence.
    - intros N. destruct (first_of k c) as [vs|] eqn:F; [|congruence]. exists (k, vs). split; [apply read_config_in, F | apply same_ckey_true; reflexivity]. }
  split.
  - rewrite map_app. set (rest := filter _ (read_config s)).
    assert (N2 : NoDup (map fst rest)) by (apply NoDup_map_filter, read_config_nodup).
    assert (DJ : forall k, In k (map fst (read_config c)) -> ~ In k (map fst rest)).
    { intros k A B. apply in_map_iff in A. destruct A as ([k1 v1] & <- & A). apply read_config_in in A.
      apply in_map_iff in B. destruct B as (e & E & B). unfold rest in B. apply filter_In in B. destruct B as [_ B]. apply negb_true_iff in B.
      rewrite E in B. cbn [fst] in B. assert (X : existsb (fun f => same_ckey (fst f) k1) (read_config c) = true) by (apply IN; congruence). congruence. }
    pose proof (read_config_nodup c) as N1. clearbody rest. revert N1 DJ. generalize (map fst (read_config c)) as l. induction l as [|a l IH]; intros N1 DJ; [exact N2|].
    inversion N1; subst. cbn [app]. constructor.
    + intros X. apply in_app_or in X. destruct X as [X|X]; [contradiction | exact (DJ a (or_introl eq_refl) X)].
    + apply IH; auto. intros k K. apply DJ. right; exact K.
  - intros k vs. rewrite in_app_iff, filter_In, !read_config_in. cbn [fst]. destruct (first_of k c) as [cv|] eqn:F.
    + assert (X : existsb (fun f => same_ckey (fst f) k) (read_config c) = true) by (apply IN; congruence). rewrite X. cbn [negb]. split.
      * intros [H | [_ H]]; [congruence | discriminate H].
      * intros ->. left; reflexivity.
    + assert (X : existsb (fun f => same_ckey (fst f) k) (read_config c) = false).
      { apply not_true_iff_false. rewrite IN. congruence. }
      rewrite X. cbn [negb]. split; [intros [H | [H _]]; [discriminate H | exact H] | auto].
Qed.
Example C88_custom_files_win_ex :
  all_configs [(ex_k, Some [ex_var]); (CK "Clock" None None None, Some [ex_other]); (CK "Fan" None None None, None)] [(ex_k, None); (ex_k, Some [ex_other]); (ex_k, Some [ex_var])]
  = [(ex_k, [ex_other]); (CK "Clock" None None None, [ex_other])].
Proof. vm_compute. reflexivity. Qed.
(** Changes of the configuration that a start does not carry out. *)
Definition with_var (c : cvar) : config := [(ex_k, [c])].
Definition row_of (h : list op) : option vrow := hd_error (vars_at (run empty_db h) ex_k ex_v).
Definition actual_of (h : list op) : option (option string) := option_map a_value (hd_error (attr_at (run empty_db h) ex_k ex_v (Some DmModel.Actual))).
Definition var_with (def val unit source : option string) (pers : option bool) : cvar :=
  CV ex_v (Ch DmModel.TString true unit None None None) [CA (Some DmModel.Actual) val (Some DmModel.ReadWrite) pers None] def [] source.
Theorem C88_changed_source_is_applied_refuted : exists c c', cv_source c' = Some "OCPP"
  /\ option_map v_source (row_of [Start (with_var c) None; Start (with_var c') None]) = Some None.
Proof. exists (var_with None (Some "x") None None None), (var_with None (Some "x") None (Some "OCPP") None). split; vm_compute; reflexivity. Qed.
Theorem C88_changed_case_is_applied_refuted : exists c c', map ca_value (cv_attrs c') = [Some "ABC"] /\ ch_unit (cv_chars c') = Some "kWh"
  /\ actual_of [Start (with_var c) None; Start (with_var c') None] = Some (Some "abc")
  /\ option_map (fun r => ch_unit (v_chars r)) (row_of [Start (with_var c) None; Start (with_var c') None]) = Some (Some "KWH").
Proof. exists (var_with None (Some "abc") (Some "KWH") None None), (var_with None (Some "ABC") (Some "kWh") None None). repeat split; vm_compute; reflexivity. Qed.
Theorem C88_removed_default_is_removed_refuted : exists c c', cv_default c' = None /\ map ca_value (cv_attrs c') = [None]
  /\ actual_of [Start (with_var c) None; Start (with_var c') None] = Some (Some "x").
Proof. exists (var_with (Some "x") None None None None), (var_with None None None None None). repeat split; vm_compute; reflexivity. Qed.
Theorem C88_added_default_is_applied_refuted : exists c c', cv_default c' = Some "x"
  /\ actual_of [Start (with_var c) None; Start (with_var c') None] = Some None
  /\ actual_of [Start (with_var c') None] = Some (Some "x").
Proof. exists (var_with None None None None None), (var_with (Some "x") None None None None). repeat split; vm_compute; reflexivity. Qed.
(** The configured persistence is not used when an attribute is inserted, but when it is changed later. *)
Definition pers_of (h : list op) : option bool := option_map a_pers (hd_error (attr_at (run empty_db h) ex_k ex_v (Some DmModel.Actual))).
Theorem C88_persistence_is_that_of_the_configuration_refuted : exists c, map ca_pers (cv_attrs c) = [Some false]
  /\ pers_of [Start (with_var c) None] = Some true /\ pers_of [Start (with_var c) None; Start (with_var c) None] = Some false.
Proof. exists (var_with (Some "x") None None None (Some false)). repeat split; vm_compute; reflexivity. Qed.
(** A component without variables, or a variable without attributes, is not seen when the database is read: it is inserted again and again. *)
Theorem C88_components_are_there_once_refuted : exists cfg,
  map snd (d_comps (run empty_db [Start cfg None; Start cfg None; Start cfg None])) = [ex_k; ex_k; ex_k].
Proof. exists [(ex_k, [])]. vm_compute. reflexivity. Qed.
Theorem C88_variables_are_there_once_refuted : exists c,
  map v_key (vars_at (run empty_db [Start (with_var c) None; Start (with_var c) None]) ex_k ex_v) = [ex_v; ex_v].
Proof. exists (CV ex_v ex_chars [] None [] None). vm_compute. reflexivity. Qed.

(** ** C89 *)
(** A second start with the same configuration leaves every row as it is. *)
Theorem C89_second_start_changes_nothing : forall h cfg d', Forall good_op h -> good_config cfg ->
  (forall e c a, In e cfg -> In c (snd e) -> In a (cv_attrs c) -> ca_pers a = None /\ ca_const a = None) ->
  initialize cfg None (run empty_db h) = Done d' -> initialize cfg None d' = Done d'.
Proof.
  intros h cfg d' G GC PL E. apply (initialize_settled cfg (run empty_db h) d'); auto; [apply reachable_good, G|].
  intros e c EI C a A. exact (PL e c a EI C A).
Qed.
Example C89_second_start_changes_nothing_ex :
  forall e c a, In e ex_cfg2 -> In c (snd e) -> In a (cv_attrs c) -> ca_pers a = None /\ ca_const a = None.
Proof.
  intros e c a E C A. repeat (destruct E as [<- | E]); try destruct E; cbn [snd] in C; repeat (destruct C as [<- | C]); try destruct C;
    cbn [cv_attrs ex_other] in A; repeat (destruct A as [<- | A]); try destruct A; split; reflexivity.
Qed.
(** If the process dies during a start, the next one gives exactly what the first would have given. *)
Theorem C89_start_after_a_crash_is_the_same : forall h cfg n, Forall good_op h ->
  initialize cfg None (after (initialize cfg (Some n) (run empty_db h))) = initialize cfg None (run empty_db h).
Proof. intros h cfg n G. apply initialize_again, reachable_good, G. Qed.
Example C89_start_after_a_crash_is_the_same_ex : exists n,
  after (initialize ex_cfg2 (Some n) (run empty_db ex_history)) <> run empty_db ex_history.
Proof. exists 1%nat. vm_compute. discriminate. Qed.
(** A configuration with a value that is not of its data type is refused, and nothing is changed. *)
Definition wrongly_typed (cfg : config) : Prop := exists e c, In e cfg /\ In c (snd e)
  /\ (~ typed (ch_type (cv_chars c)) (cv_default c) \/ exists a, In a (cv_attrs c) /\ ~ typed (ch_type (cv_chars c)) (ca_value a)).
Theorem C89_wrongly_typed_values_are_refused : forall cfg crash d, wrongly_typed cfg -> initialize cfg crash d = Failed d.
Proof.
  intros cfg crash d (e & c & E & C & H). unfold initialize. destruct (read_all d) as [x|]; [|reflexivity].
  destruct (check_integrity cfg) eqn:CI; [|reflexivity]. exfalso. destruct (proj1 (check_integrity_iff cfg) CI e c E C) as [A B].
  destruct H as [H | (a & AI & H)]; [exact (H A) | exact (H (B a AI))].
Qed.
Example C89_wrongly_typed_values_are_refused_ex : wrongly_typed [(ex_k, [CV ex_v ex_chars [ex_attr] (Some "ten") [] None])].
Proof.
  exists (ex_k, [CV ex_v ex_chars [ex_attr] (Some "ten") [] None]), (CV ex_v ex_chars [ex_attr] (Some "ten") [] None).
  split; [left; reflexivity|]. split; [left; reflexivity|]. left. intros [H | [H|H]]; [discriminate H | vm_compute in H; discriminate H | vm_compute in H; discriminate H].
Qed.
(** A start that fails because of a delta monitor without a reference value has removed components by then. *)
Theorem C89_failed_start_changes_nothing_refuted : exists cfg d d', d = run empty_db [Start ex_cfg None]
  /\ initialize cfg None d = Failed d' /\ List.length (d_comps d) = 2%nat /\ d_comps d' = [] /\ d_vars d' = [].
Proof.
  exists [(CK "Fan" None None None, [CV ex_v ex_chars [ex_attr] None [Mon 5 false DmModel.Delta DmModel.HardWired 1 None] None])].
  eexists. eexists. split; [reflexivity|]. split; [vm_compute; reflexivity|]. split; [vm_compute; reflexivity|]. split; reflexivity.
Qed.
(** A default value of more than 2500 characters is stored, and no start succeeds any more. *)
Fixpoint xs (n : nat) : string := match n with O => "" | S m => append "x" (xs m) end.
Theorem C89_starts_succeed_with_long_defaults_refuted : exists cfg d, check_integrity cfg = true
  /\ initialize cfg None empty_db = Done d /\ initialize cfg None d = Failed d.
Proof.
  exists (with_var (var_with (Some (xs (25 * 100 + 1))) None None None None)). eexists. split; [vm_compute; reflexivity|]. split; vm_compute; reflexivity.
Qed.

(** ** C90 *)
(** After a start a variable has the monitors of the configuration, each once, those that were there with their ids, and the custom
    monitors that it had. *)
Theorem C90_monitors_after_a_start : forall h cfg k c d', Forall good_op h -> good_config cfg -> configures cfg k c ->
  initialize cfg None (run empty_db h) = Done d' ->
  exists v, vars_at d' k (cv_key c) = [v] /\ mons_ok (cv_mons c) (v_mons v) /\ custom_mons (v_mons v) = customs_at (run empty_db h) k (cv_key c).
Proof.
  intros h cfg k c d' G GC CF E. pose proof (reachable_good h G) as GD.
  destruct (initialize_reflects cfg _ GD GC) as (d2 & E2 & _ & R). rewrite E in E2. inversion E2; subst d2.
  destruct (rf_vars _ _ _ R k c CF) as (v & V & OK). exists v. split; [exact V|]. split; [exact (vo_mons _ _ _ OK)|].
  rewrite (vo_custom _ _ _ OK). unfold customs_at. destruct (vars_at_unique _ k (cv_key c) GD) as [Q | (w & Q)]; rewrite Q; cbn [hd_error flat_map]; [reflexivity|].
  rewrite app_nil_r. reflexivity.
Qed.
Example C90_monitors_after_a_start_ex :
  configures ex_cfg2 ex_k (CV ex_v ex_chars [ex_attr] (Some "12") [Mon 5 true DmModel.UpperThreshold DmModel.HardWired 100 None] None)
  /\ map v_mons (vars_at (run empty_db (ex_history ++ [Start ex_cfg2 None])) ex_k ex_v)
     = [[(1, Mon 5 true DmModel.UpperThreshold DmModel.HardWired 100 None); (2, ex_custom)]].
Proof. split; [eexists; split; [right; left; reflexivity | right; left; reflexivity] | vm_compute; reflexivity]. Qed.
(** A custom monitor stays, with its id, until it is cleared or changed, or its variable is no longer configured. *)
Theorem C90_custom_monitors_survive : forall h1 h2 k v m, Forall good_op h1 -> Forall good_op h2 -> m_cfg m = DmModel.Custom ->
  vars_at (run empty_db h1) k v <> [] ->
  exists i, In (i, m) (customs_at (run empty_db (h1 ++ [AddMonitor k v m])) k v)
    /\ (Forall (leaves k v i) h2 -> In (i, m) (customs_at (run empty_db (h1 ++ AddMonitor k v m :: h2)) k v)).
Proof.
  intros h1 h2 k v m G1 G2 C N. pose proof (reachable_good h1 G1) as G. destruct (add_monitor_there _ k v m G C N) as (i & I). exists i.
  rewrite !run_app. unfold run at 1 3. cbn [fold_left step]. split; [exact I|]. intros L.
  change (fold_left step h2) with (fun d => run d h2). cbv beta. apply customs_run; auto. apply good_add_monitor; assumption.
Qed.
Example C90_custom_monitors_survive_ex : vars_at (run empty_db [Start ex_cfg None]) ex_k ex_v <> []
  /\ Forall (leaves ex_k ex_v 2) [Start ex_cfg2 None; ClearMonitor 1 true; SetReference 1 "4"]
  /\ customs_at (run empty_db ([Start ex_cfg None] ++ AddMonitor ex_k ex_v ex_custom :: [Start ex_cfg2 None; ClearMonitor 1 true; SetReference 1 "4"])) ex_k ex_v = [(2, ex_custom)].
Proof.
  split; [vm_compute; discriminate|]. split; [|vm_compute; reflexivity].
  constructor; [|repeat constructor; discriminate]. eexists. split; [eexists; split; [right; left; reflexivity | right; left; reflexivity] | reflexivity].
Qed.
(** Monitors that the configuration calls custom are added again at every start. *)
Theorem C90_configured_custom_monitors_are_there_once_refuted : exists c,
  map m_cfg (cv_mons c) = [DmModel.Custom]
  /\ List.length (customs_at (run empty_db [Start (with_var c) None; Start (with_var c) None; Start (with_var c) None]) ex_k ex_v) = 3%nat.
Proof. exists (CV ex_v ex_chars [ex_attr] (Some "1") [ex_custom] None). split; vm_compute; reflexivity. Qed.

Print Assumptions C87_values_set_by_others_survive.
Print Assumptions C88_start_gives_the_configuration_partial.
Print Assumptions C88_custom_files_win.
Print Assumptions C89_second_start_changes_nothing.
Print Assumptions C89_start_after_a_crash_is_the_same.
Print Assumptions C89_wrongly_typed_values_are_refused.
Print Assumptions C90_monitors_after_a_start.
Print Assumptions C90_custom_monitors_survive.
Print Assumptions C87_values_survive_with_empty_instances_refuted.
Print Assumptions C87_kept_values_are_of_the_type_refuted.
Print Assumptions C88_changed_source_is_applied_refuted.
Print Assumptions C88_changed_case_is_applied_refuted.
Print Assumptions C88_removed_default_is_removed_refuted.
Print Assumptions C88_added_default_is_applied_refuted.
Print Assumptions C88_persistence_is_that_of_the_configuration_refuted.
Print Assumptions C88_components_are_there_once_refuted.
Print Assumptions C88_variables_are_there_once_refuted.
Print Assumptions C89_failed_start_changes_nothing_refuted.
Print Assumptions C89_starts_succeed_with_long_defaults_refuted.
Print Assumptions C90_configured_custom_monitors_are_there_once_refuted.
