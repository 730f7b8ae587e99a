(** Meter values: the properties. *)
From Coq Require Import String Ascii ZArith QArith Qabs List Bool Lia Permutation Sorted.
From Verif Require Import MvModel MvEvse MvSpec MvSpec2 MvProofs MvProofs2 MvProofs3 MvProofs4 MvProofs5.
Import ListNotations.
Local Open Scope string_scope.
Local Open Scope list_scope.
Local Open Scope Z_scope.

Definition smp (v : Q) (m c : Z) : sample := Sample v (Some m) (Some c) None None None None None.
Definition located (l : option Z) (s : sample) : sample :=
  Sample (s_value s) (s_measurand s) (s_context s) (s_phase s) l (s_signed s) (s_unit s) (s_custom s).

Definition both (e w : Q) : mvalue := MV [smp e 20 4; smp w 41 4] 5 None.
Definition only (e : Q) : mvalue := MV [smp e 20 4] 5 None.

(** ** C44 *)
(** After any insertions and deletions of values the store can keep, the values of every transaction that were accepted are
    returned, to the millisecond, in the order of their times. *)
Theorem stored_values_returned_partial : forall l, Forall plain_op l ->
  exists s, kept l s /\ forall tx, exists v, db_get_all tx (tables l) = Some v /\ Permutation (of_tx tx s) v /\ StronglySorted earlier v.
Proof. intros l P. destruct (tables_ok l P) as (s&K&O). exists s. split; [exact K|]. intros tx. exact (get_all_ok _ s tx O). Qed.
Print Assumptions stored_values_returned_partial.
Example stored_example :
  let a := MV [smp 1 20 4; smp (1 # 3) 41 4] 2000000 None in let b := MV [smp 2 20 4] 1000000 None in
  Forall plain_op [Clr "y"; Ins true "x" b; Ins true "y" b; Ins true "x" a] /\
  db_get_all "x" (tables [Clr "y"; Ins true "x" b; Ins true "y" b; Ins true "x" a]) = Some [b; a].
Proof.
  assert (P : forall l t, l <> [] -> Forall (fun s => exists v m, s = smp v m 4 /\ m <= Voltage) l -> plain true (MV l t None)).
  { intros l t N F. split; [exact N|]. split; [reflexivity|].
    assert (G : forall Q : sample -> Prop, (forall v m, m <= Voltage -> Q (smp v m 4)) -> Forall Q l) by (intros Q H; eapply Forall_impl; [|exact F]; intros a (v&m&->&B); apply H, B).
    split; [exists 4; apply G; intros v m B; repeat split; exact B|]. repeat split; left; apply G; reflexivity. }
  intros a b. split; [|vm_compute; reflexivity].
  assert (A : plain true a) by (apply P; [discriminate|]; repeat constructor; eexists _, _; (split; [reflexivity|unfold Voltage; lia])).
  assert (B : plain true b) by (apply P; [discriminate|]; repeat constructor; eexists _, _; (split; [reflexivity|unfold Voltage; lia])).
  constructor; [exact Logic.I|]. constructor; [exact B|]. constructor; [exact B|]. constructor; [exact A|constructor].
Qed.
(** Operations on one transaction do not change what is returned for others, whatever the values; nothing is left of a
    transaction whose values are cleared. *)
Theorem other_transactions_untouched : forall l tx tx', tx' <> tx ->
  (forall fk m, db_get_all tx' (tables (Ins fk tx m :: l)) = db_get_all tx' (tables l)) /\
  db_get_all tx' (tables (Clr tx :: l)) = db_get_all tx' (tables l).
Proof. intros l tx tx' N. split; [intros fk m; apply insert_other|apply clear_other]; try apply ids_tables; exact N. Qed.
Print Assumptions other_transactions_untouched.
Theorem cleared_transaction_empty : forall l tx, db_get_all tx (tables (Clr tx :: l)) = Some [] /\
  ((forall fk tx' m, In (Ins fk tx' m) l -> tx' = tx) -> tables (Clr tx :: l) = Db [] []).
Proof.
  intros l tx. split; [apply clear_own|]. intros H. cbn [tables]. apply clear_items; [apply ids_tables|].
  induction l as [|o q IH]; [intros r []|]. assert (IHq := IH (fun fk tx' m I => H fk tx' m (or_intror I))). destruct o as [fk tx' m|tx']; cbn [tables].
  - destruct (insert_shape fk tx' m (tables q)) as [->|(t&c&is&->)]; [exact IHq|]. cbn [d_rows]. intros r I. apply in_app_iff in I. destruct I as [I|[<-|[]]]; [exact (IHq r I)|].
    cbn [r_tx]. apply (H fk tx' m). left. reflexivity.
  - intros r I. unfold db_clear in I. cbn [d_rows] in I. apply filter_In in I. exact (IHq r (proj1 I)).
Qed.
Print Assumptions cleared_transaction_empty.
Example cleared_example :
  let a := MV [smp 1 20 4] 2000000 None in
  db_get_all "x" (tables [Ins true "x" a]) = Some [a] /\ tables [Clr "x"; Ins true "x" a] = Db [] [] /\
  db_get_all "x" (tables [Clr "y"; Ins true "y" a; Ins true "x" a]) = Some [a].
Proof. vm_compute. auto. Qed.
(** Not every value comes back: the location of an earlier sampled value is given to a later one without a location. *)
Theorem stored_location_refuted : exists a m, m_samples m = [located (Some 4) a; a] /\ s_location a = None /\
  exists m', db_get_all "x" (tables [Ins true "x" m]) = Some [m'] /\ m_samples m' = [located (Some 4) a; located (Some 4) a].
Proof.
  exists (smp 1 20 4), (MV [located (Some 4) (smp 1 20 4); smp 1 20 4] 2000000 None). split; [reflexivity|]. split; [reflexivity|]. eexists. split; [vm_compute; reflexivity|reflexivity].
Qed.
Print Assumptions stored_location_refuted.
(** A signed value without a public key, and the custom data of a meter value, are lost. *)
Theorem stored_signed_refuted : exists m g m', db_get_all "x" (tables [Ins true "x" m]) = Some [m'] /\
  map s_signed (m_samples m) = [Some g] /\ map s_signed (m_samples m') = [None].
Proof.
  exists (MV [Sample 1 (Some 20) (Some 4) None None (Some (Signed "d" "e" (Some "m") None)) None None] 2000000 None), (Signed "d" "e" (Some "m") None).
  eexists. split; [vm_compute; reflexivity|]. split; reflexivity.
Qed.
Print Assumptions stored_signed_refuted.
Theorem stored_custom_refuted : exists m m' j, db_get_all "x" (tables [Ins true "x" m]) = Some [m'] /\ m_custom m = Some j /\ m_custom m' = None.
Proof. exists (MV [smp 1 20 4] 2000000 (Some (Object (Some "v") 1))). eexists. eexists. split; [vm_compute; reflexivity|]. split; reflexivity. Qed.
Print Assumptions stored_custom_refuted.
(** Reading a sampled value with custom data is undefined. *)
Theorem stored_sample_custom_refuted : exists m, db_insert true "x" m (tables []) = Done (tables [Ins true "x" m]) /\ db_get_all "x" (tables [Ins true "x" m]) = None.
Proof. exists (MV [Sample 1 (Some 20) (Some 4) None None None None (Some (Object (Some "v") 1))] 2000000 None). split; vm_compute; reflexivity. Qed.
Print Assumptions stored_sample_custom_refuted.
(** A value of the same millisecond and context is dropped. *)
Theorem stored_all_refuted : exists a b, m_time a < m_time b /\ plain true a /\ plain true b /\
  db_get_all "x" (tables [Ins true "x" b; Ins true "x" a]) = db_get_all "x" (tables [Ins true "x" a]).
Proof.
  exists (MV [smp 1 20 4] 2000000 None), (MV [smp 2 20 4] 2000001 None). split; [cbn; lia|].
  assert (P : forall v t, plain true (MV [smp v 20 4] t None)).
  { intros v t. split; [discriminate|]. split; [reflexivity|]. split; [exists 4; constructor; [repeat split; cbn; unfold Voltage; lia|constructor]|]. repeat split; left; (constructor; [reflexivity|constructor]). }
  split; [apply P|]. split; [apply P|]. vm_compute. reflexivity.
Qed.
Print Assumptions stored_all_refuted.
(** An insertion that fails leaves a meter value without sampled values behind. *)
Theorem failed_insertion_refuted : exists m, db_insert true "x" m (tables []) = QueryFailed (tables [Ins true "x" m]) /\
  exists t, db_get_all "x" (tables [Ins true "x" m]) = Some [MV [] t None].
Proof. exists (MV [smp 1 60 4] 2000000 None). split; [vm_compute; reflexivity|]. eexists. vm_compute. reflexivity. Qed.
Print Assumptions failed_insertion_refuted.

(** The only values that are refused as wrong are those whose first sample has a context that another one has not; nothing is stored then. *)
Theorem odd_context_refused : forall fk tx m d,
  db_insert fk tx m d = BadContext <-> exists s0 q c, m_samples m = s0 :: q /\ s_context s0 = Some c /\ exists s, In s (s0 :: q) /\ s_context s <> Some c.
Proof.
  intros fk tx m d. unfold db_insert. destruct (m_samples m) as [|s0 q]; [split; [discriminate|intros (s0 & q & c & E & _); discriminate]|].
  destruct (s_context s0) as [c|] eqn:C; [|split; [discriminate|intros (s1 & q1 & c & E & X & _); injection E as -> ->; congruence]].
  assert (O : forall a b, oeqb a (Some b) = true <-> a = Some b).
  { intros [a|] b; cbn; [rewrite Z.eqb_eq; split; congruence|split; discriminate]. }
  destruct (existsb (fun s => negb (oeqb (s_context s) (Some c))) (s0 :: q)) eqn:E.
  - split; [|reflexivity]. intros _. exists s0, q, c. split; [reflexivity|]. split; [exact C|]. apply existsb_exists in E. destruct E as (s & I & N). exists s. split; [exact I|].
    intros X. apply O in X. rewrite X in N. discriminate.
  - split; [intros X; exfalso; revert X; destruct (existsb _ (d_rows d)); [discriminate|]; destruct (insert_items _ _ _); discriminate|].
    intros (s1 & q1 & c1 & X & Y & s & I & N). exfalso. injection X as <- <-. rewrite C in Y. injection Y as <-.
    assert (F : existsb (fun s => negb (oeqb (s_context s) (Some c))) (s0 :: q) = true); [|congruence].
    apply existsb_exists. exists s. split; [exact I|]. apply negb_true_iff, not_true_is_false. intros Z. apply O in Z. contradiction.
Qed.
Print Assumptions odd_context_refused.
Example odd_context_refused_ex : db_insert true "x" (MV [smp 1 20 4; smp 1 20 5] 0 None) (tables []) = BadContext.
Proof. vm_compute. reflexivity. Qed.

(** ** C45 *)
Theorem configured_measurands : forall m ms k, measurands_applied m ms k = MV (filtered ms k (m_samples m)) (m_time m) (m_custom m).
Proof. intros m ms k. unfold measurands_applied, with_samples. rewrite applied_filtered. reflexivity. Qed.
Print Assumptions configured_measurands.
Theorem ended_selection : forall l sampled aligned t ss sa r, all_applied l sampled aligned t ss sa = r <-> all_selected sampled aligned t ss sa l r.
Proof.
  intros l sampled aligned t ss sa r. split; [intros <-; apply all_applied_spec|]. intros H. pose proof (all_applied_spec l sampled aligned t ss sa) as H'.
  revert H'. generalize (all_applied l sampled aligned t ss sa) as r'. induction H as [|m q x r S F IH]; intros r' H'; inversion H'; subst; [reflexivity|].
  f_equal; [|apply IH; assumption]. eapply selected_unique; eassumption.
Qed.
Print Assumptions ended_selection.
Example selection_example :
  let m c := MV [smp 1 20 c; smp 2 53 c; smp 3 41 c] 5 None in
  all_applied [m 4; m 3; m 7; MV (m_samples (m 6)) 9 None] [20; 41] [53] 8 true true =
    [MV [smp 1 20 4; smp 3 41 4] 5 None; MV [smp 2 53 3] 5 None].
Proof. reflexivity. Qed.
(** Whatever happens to an EVSE, what it says of its meter values is what the history since its last reports demands. *)
Theorem reports_follow_history : forall t l, Forall (fun e => ~ In Undefined (snd e)) (fst (trace l (boot t))) ->
  exists p, history t (fst (trace l (boot t))) p.
Proof. intros t l H. destruct (trace_history t l H) as (p&X&_). exists p. exact X. Qed.
Print Assumptions reports_follow_history.
(** It is undefined only when the values of a transaction with custom data are read. *)
Theorem undefined_only_with_custom_data : forall t l c o, Forall (fun e => ~ In Undefined (snd e)) (fst (trace l (boot t))) ->
  In Undefined (snd (step c o (snd (trace l (boot t))))) ->
  exists t1 m p, o = Finish t1 m /\ history t (fst (trace l (boot t))) p /\ p_tx p <> None /\ ~ (Forall plain_op (p_ops p) /\ plain (c_fk c) m).
Proof. exact undefined_ok. Qed.
Print Assumptions undefined_only_with_custom_data.
Definition cfg : config := Config (Some 10) false true [20] [20] [20; 41] [20] [53] true true 900 0 true.
Example report_example :
  map snd (fst (trace [(cfg, TickAligned (1000 * second)); (cfg, Meter (both 4 8)); (cfg, Meter (both 2 4)); (cfg, Start "x" 0 0 (both 1 2))] (boot 0))) =
  [[Event Updated "x" [MV [smp 4 20 3; smp (12 # 2) 41 3] (900 * second) None]]; []; []; [Event Started "x" [MV [smp 1 20 4] 5 None]]].
Proof. vm_compute. reflexivity. Qed.

(** The mean is one of numbers: units are ignored, so 1 kW and 1000 W become 500.5 W. *)
Definition in_unit (u : string) (s : sample) : sample :=
  Sample (s_value s) (s_measurand s) (s_context s) (s_phase s) (s_location s) (s_signed s) (Some (Unit (Some u) None None)) (s_custom s).
Theorem average_units_refuted : exists a b v, s_unit a <> s_unit b /\ s_measurand a = Some Power_Active_Import /\ s_measurand b = Some Power_Active_Import /\
  snd (step cfg (TickAligned 0) (snd (trace [(cfg, Meter (MV [b] 2 None)); (cfg, Meter (MV [a] 1 None)); (cfg, Start "x" 0 0 (only 0))] (boot 0)))) =
    [Event Updated "x" [MV [v] 0 None]] /\ s_unit v = s_unit b /\ (s_value v == (s_value a + s_value b) / 2)%Q.
Proof.
  exists (in_unit "kW" (smp 1 41 4)), (in_unit "W" (smp 1000 41 4)). eexists. split; [discriminate|]. split; [reflexivity|]. split; [reflexivity|].
  split; [vm_compute; reflexivity|]. split; vm_compute; reflexivity.
Qed.
Print Assumptions average_units_refuted.

(** ** C46 *)
(** For even intervals, or whole seconds, the result is the nearest point of the clock since midnight, the later of two. *)
Theorem timestamp_aligned_partial : forall t m i, midnight t m -> 0 < i -> i mod 2 = 0 \/ (t - m) mod second = 0 ->
  exists r, align_timestamp t i = Some r /\ on_grid m i r /\ m <= r /\
    forall g, on_grid m i g -> Z.abs (t - r) < Z.abs (t - g) \/ (Z.abs (t - r) = Z.abs (t - g) /\ g <= r).
Proof. intros t m i M I H. destruct (align_total t i I) as (r&R). exists r. split; [exact R|]. exact (align_nearest t m i r M I H R). Qed.
Print Assumptions timestamp_aligned_partial.
Example aligned_example : midnight (86400 * second + 449 * second + 999) (86400 * second) /\
  align_timestamp (86400 * second + 449 * second + 999) 900 = Some (86400 * second) /\
  align_timestamp (86400 * second + 450 * second) 900 = Some (86400 * second + 900 * second).
Proof. split; [split; [split; [apply Z.leb_le|apply Z.ltb_lt]; vm_compute; reflexivity|exists 1; vm_compute; reflexivity]|]. split; vm_compute; reflexivity. Qed.
(** For any interval it is a point of the clock less than half a second further than half an interval. *)
Theorem timestamp_close : forall t m i, midnight t m -> 0 < i ->
  exists r, align_timestamp t i = Some r /\ on_grid m i r /\ 2 * Z.abs (t - r) < i * second + second.
Proof. intros t m i M I. destruct (align_total t i I) as (r&R). exists r. split; [exact R|]. exact (align_close t m i r M I R). Qed.
Print Assumptions timestamp_close.
(** It need not be the nearest for odd intervals. *)
Theorem timestamp_nearest_refuted : exists t m i r g, midnight t m /\ 0 < i /\ align_timestamp t i = Some r /\ on_grid m i g /\ Z.abs (t - g) < Z.abs (t - r).
Proof.
  exists (1700000000), 0, 3, 0, (3 * second). split; [split; [split; [apply Z.leb_le|apply Z.ltb_lt]; vm_compute; reflexivity|exists 0; vm_compute; reflexivity]|]. split; [lia|]. split; [vm_compute; reflexivity|].
  split; [exists 1; vm_compute; reflexivity|]. vm_compute. reflexivity.
Qed.
Print Assumptions timestamp_nearest_refuted.
(** An interval of zero divides by zero. *)
Theorem timestamp_zero_refuted : exists t, forall r, align_timestamp t 0 <> Some r.
Proof. exists 0. intros r. vm_compute. discriminate. Qed.
Print Assumptions timestamp_zero_refuted.

(** ** C67 *)
(** While a transaction whose identifier became invalid is watched, a pause is demanded exactly when the energy since its
    start, rounded to whole Wh, has reached the maximum. *)
Theorem pause_exact : forall t l c o, Forall (fun e => ~ In Undefined (snd e)) (fst (trace ((c, o) :: l) (boot t))) ->
  exists p, history t (fst (trace l (boot t))) p /\
    let x := snd (step c o (snd (trace l (boot t)))) in
    match o with
    | Meter m => In Pause x <-> p_watch p = true /\ watched c p m
    | Invalid => In Pause x <-> watched c p (p_last p)
    | _ => ~ In Pause x
    end.
Proof. exact pause_ok. Qed.
Print Assumptions pause_exact.
(** In Wh: at half a Wh below the maximum, with a maximum of at least one. *)
Theorem pause_threshold : forall c p m id q0 limit, p_tx p = Some (id, Some q0) -> c_max c = Some limit -> 1 <= limit ->
  (watched c p m <-> exists q, register m q /\ (inject_Z limit - (1 # 2) <= q - q0)%Q).
Proof.
  intros c p m id q0 limit T M L. unfold watched. split.
  - intros (id'&q0'&q&limit'&n&A&B&C&D&E). rewrite T in A. rewrite M in C. injection A as <- <-. injection C as <-. exists q. split; [exact B|]. apply (half_limit _ n limit D L). exact E.
  - intros (q&R&H). exists id, q0, q, limit, (lround (q - q0)). pose proof (lround_nearest (q - q0)) as N. repeat (split; [assumption|]). apply (half_limit _ _ limit N L). exact H.
Qed.
Print Assumptions pause_threshold.
(** After a pause, or before the identifier becomes invalid, there is none until it becomes invalid again. *)
Theorem pause_once : forall l s, checks s = false -> ~ In Invalid (map snd l) -> Forall (fun e => ~ In Pause (snd e)) (fst (trace l s)).
Proof. intros l s H N. apply quiet_trace; assumption. Qed.
Print Assumptions pause_once.
Theorem pause_disarms : forall c o s, In Pause (snd (step c o s)) -> checks (fst (step c o s)) = false.
Proof. exact pause_disarms_ok. Qed.
Print Assumptions pause_disarms.
Example pause_example :
  map snd (fst (trace [(cfg, Meter (only 30)); (cfg, Meter (only (25 # 2))); (cfg, Meter (only 12)); (cfg, Invalid); (cfg, Meter (only 5)); (cfg, Start "x" 0 0 (only 3)); (cfg, Meter (only 3))] (boot 0))) =
  [[]; [Pause]; []; []; []; [Event Started "x" [MV [smp 3 20 4] 5 None]]; []].
Proof. vm_compute. reflexivity. Qed.

(** ** C68 *)
(** In every state that can be reached, triggers that are set have somewhere to go. *)
Theorem triggers_can_send : forall t l, can_send (snd (trace l (boot t))).
Proof. exact can_send_trace. Qed.
Print Assumptions triggers_can_send.
(** Triggers stay as they were set until others are set or the transaction ends; only a value that is reported uses up the
    energy trigger, and only its timer the time trigger. *)
Theorem triggers_kept : forall c o s, let '(s', x) := step c o s in
  let e := s_evse s in let e' := s_evse s' in
  match o with
  | Triggers p k t now => e_power e' = p /\ e_energy e' = k /\ e_last e' = e_last e /\
      (forall x, t = Some x -> (now <= x -> e_timer e' = Some x) /\ (x < now -> e_timer e' = None))
  | Finish _ _ =>
      ((exists id v, In (Event Ended id v) x) -> e_power e' = None /\ e_energy e' = None /\ e_last e' = None /\ e_timer e' = None) /\
      ((forall id v, ~ In (Event Ended id v) x) -> e_power e' = e_power e /\ e_energy e' = e_energy e /\ e_last e' = e_last e /\ e_timer e' = e_timer e)
  | Meter _ => e_power e' = e_power e /\ e_timer e' = e_timer e
  | TimeTrigger => e_power e' = e_power e /\ e_energy e' = e_energy e /\ e_last e' = e_last e
  | _ => e_power e' = e_power e /\ e_energy e' = e_energy e /\ e_last e' = e_last e /\ e_timer e' = e_timer e
  end.
Proof. exact triggers_kept_ok. Qed.
Print Assumptions triggers_kept.
(** An energy trigger is reported by the first value that reaches it, and not again before new triggers are set. *)
Theorem energy_trigger_exact : forall t l c m k, let s := snd (trace l (boot t)) in let '(s', x) := step c (Meter m) s in
  e_energy (s_evse s) = Some k -> ~ In Threw x ->
  (due m k -> In (Values false [billed m]) x /\ e_energy (s_evse s') = None) /\ (~ due m k -> e_energy (s_evse s') = Some k).
Proof.
  intros t l c m k. cbv zeta. pose proof (can_send_trace t l) as CS. set (s := snd (trace l (boot t))) in *. destruct (step c (Meter m) s) as [s' x] eqn:E. intros K N.
  apply (energy_ok c m s s' x k E K); [|exact N]. apply CS. right. left. rewrite K. discriminate.
Qed.
Print Assumptions energy_trigger_exact.
Theorem energy_trigger_once : forall l s, e_energy (s_evse s) = None -> (forall c p k t n, ~ In (c, Triggers p k t n) l) -> e_energy (s_evse (snd (trace l s))) = None.
Proof. exact energy_off. Qed.
Print Assumptions energy_trigger_once.
(** The power is reported the first time and then only when it has crossed the trigger by five percent. *)
Theorem power_trigger_exact : forall t l c m trigger, let s := snd (trace l (boot t)) in let '(s', x) := step c (Meter m) s in
  e_power (s_evse s) = Some trigger -> ~ In Threw x ->
  e_power (s_evse s') = Some trigger /\
  ((exists w, power m w /\ fires (e_last (s_evse s)) trigger (w / 1000) /\ e_last (s_evse s') = Some (w / 1000)%Q /\
     (In (Values false [MV (map othered (m_samples m)) (m_time m) (m_custom m)]) x \/ In (Values false [billed m]) x)) \/
   ((forall w, power m w -> ~ fires (e_last (s_evse s)) trigger (w / 1000)) /\ e_last (s_evse s') = e_last (s_evse s) /\
     (e_energy (s_evse s) = None -> forall z v, ~ In (Values z v) x))).
Proof.
  intros t l c m trigger. cbv zeta. pose proof (can_send_trace t l) as CS. set (s := snd (trace l (boot t))) in *. destruct (step c (Meter m) s) as [s' x] eqn:E. intros K N.
  apply (power_ok c m s s' x trigger E K); [|exact N]. apply CS. left. rewrite K. discriminate.
Qed.
Print Assumptions power_trigger_exact.
Example trigger_example :
  let o v := map othered (m_samples v) in let c := Config None false true [] [] [] [] [] true true 0 0 true in
  map snd (fst (trace [(c, Meter (both 1003 900)); (c, Meter (both 1002 951)); (c, Meter (both 1001 1050)); (c, Meter (both 1000 1049)); (c, Meter (both 999 500));
                       (c, Triggers (Some (1%Q)) (Some (1%Q)) None 0)] (boot 0))) =
  [[Values false [MV (o (both 1003 900)) 5 None]]; []; [Values false [MV (o (both 1001 1050)) 5 None]]; [Values false [MV (o (both 1000 1049)) 5 None]];
   [Values false [MV (o (both 999 500)) 5 None]]; []].
Proof. vm_compute. reflexivity. Qed.
(** The time trigger reports the register once. *)
Theorem time_trigger_exact : forall t l c, let s := snd (trace l (boot t)) in let '(s', x) := step c TimeTrigger s in
  e_timer (s_evse s') = None /\
  match e_timer (s_evse s) with
  | None => x = []
  | Some _ => let f := filtered [Energy_Active_Import_Register] true (m_samples (e_meter (s_evse s))) in
      (f = [] /\ x = []) \/ (f <> [] /\ x = [Values false [MV (map othered f) (m_time (e_meter (s_evse s))) (m_custom (e_meter (s_evse s)))]])
  end.
Proof. exact time_trigger_ok. Qed.
Print Assumptions time_trigger_exact.
(** A time trigger that was replaced by triggers without a time still reports. *)
Theorem time_trigger_replaced_refuted : exists l c, (exists q p k n, l = (c, Triggers p k None n) :: q) /\ snd (step c TimeTrigger (snd (trace l (boot 0)))) <> [].
Proof.
  exists [(cfg, Triggers None None None 1); (cfg, Triggers None None (Some 100) 1); (cfg, Meter (MV [smp 1 20 4] 5 None))], cfg.
  split; [eexists _, _, _, _; reflexivity|]. vm_compute. discriminate.
Qed.
Print Assumptions time_trigger_replaced_refuted.
(** When the power first reported is that of the trigger itself, no power is reported any more. *)
Theorem power_at_trigger_refuted : exists l trigger, e_power (s_evse (snd (trace l (boot 0)))) = Some trigger /\ e_energy (s_evse (snd (trace l (boot 0)))) = None /\
  forall c m, let x := snd (step c (Meter m) (snd (trace l (boot 0)))) in ~ In Threw x -> forall z v, ~ In (Values z v) x.
Proof.
  set (c := Config None false true [] [] [] [] [] true true 0 0 true). set (l := [(c, Meter (MV [smp 1000 41 4] 5 None)); (c, Triggers (Some (1%Q)) None None 0)]).
  exists l, 1%Q. split; [vm_compute; reflexivity|]. split; [vm_compute; reflexivity|]. intros c' m x N z v.
  pose proof (power_trigger_exact 0 l c' m 1%Q) as P. cbv zeta in P. unfold x in *. destruct (step c' (Meter m) (snd (trace l (boot 0)))) as [s' y]. cbn [snd] in *.
  destruct (P ltac:(vm_compute; reflexivity) N) as [_ [(w&_&F&_)|(_&_&W)]]; [|exact (W ltac:(vm_compute; reflexivity) z v)].
  exfalso. assert (L : e_last (s_evse (snd (trace l (boot 0)))) = Some (1000 / 1000)%Q) by (vm_compute; reflexivity). rewrite L in F. destruct F as [[F _]|[F _]]; vm_compute in F; discriminate F.
Qed.
Print Assumptions power_at_trigger_refuted.

(** ** C69 *)
(** The timer fires at the first point of its grid after now. *)
Theorem timer_next_point : forall start interval now, 0 < interval ->
  (start < now -> on_grid start interval (next_timepoint start interval now) /\ now < next_timepoint start interval now <= now + interval * second /\
    forall g, on_grid start interval g -> now < g -> next_timepoint start interval now <= g) /\
  (now <= start -> next_timepoint start interval now = start).
Proof.
  intros start interval now I. split; [|apply next_before]. intros N. destruct (next_grid start interval now I N) as [G B]. split; [exact G|]. split; [exact B|].
  exact (next_first start interval now I N).
Qed.
Print Assumptions timer_next_point.
Example timer_example : next_timepoint (100 * second) 60 (161 * second + 5) = 220 * second /\ next_timepoint (100 * second) 60 (160 * second) = 220 * second /\
  next_timepoint (100 * second) 60 (99 * second) = 100 * second.
Proof. vm_compute. auto. Qed.
(** The grid of a timer that was started on another day need not be the one to which times are rounded. *)
Theorem timer_grid_refuted : exists start interval now r, midnight start start /\ start < now /\ 0 < interval /\ on_grid start interval now /\
  align_timestamp now interval = Some r /\ r <> now.
Proof.
  exists 0, 7000, (91000 * second). eexists. split; [split; [split; [apply Z.leb_le|apply Z.ltb_lt]; vm_compute; reflexivity|exists 0; vm_compute; reflexivity]|]. split; [apply Z.ltb_lt; vm_compute; reflexivity|]. split; [lia|].
  split; [exists 13; vm_compute; reflexivity|]. split; [vm_compute; reflexivity|]. vm_compute. discriminate.
Qed.
Print Assumptions timer_grid_refuted.
