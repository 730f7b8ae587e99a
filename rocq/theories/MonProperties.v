(** Variable monitoring: the properties C32 and C62. *)
From Coq Require Import ZArith List Bool Lia.
From Verif Require Import MonModel MonSpec MonSpec2 MonProofs MonProofs2 MonProofs3 MonProofs4 MonProofs5 MonProofs6.
Import ListNotations.
Local Open Scope Z_scope.

(** * Values used in the examples *)
Definition upper : monitor := Mon 7 3 Upper 80 Custom None.
Definition every10 : monitor := Mon 9 3 Periodic 10 Custom None.
Definition quarter : monitor := Mon 11 3 Aligned 900 Custom None.
Definition at_ (periodic : list (Z * list monitor)) (offline : bool) (steady clock : Z) : env :=
  Env true offline 4 9 BaseAll steady clock (fun _ => Some 42) periodic.
Definition calm (t : Z) : env := at_ [] false t t.
Definition change (a b : Z) : op := OChange [upper] 1 Number true false a b.
(** The temperature rises above 80, a pass, falls, a pass. *)
Definition heat : list op := [change 20 90; OTimer (calm 1); change 90 95; OTriggered (calm 2); change 95 30; OTimer (calm 3)].

Lemma run_last : forall p h o, run p (h ++ [o]) = step (run p h) o.
Proof. intros. unfold run. rewrite fold_left_app. reflexivity. Qed.
Lemma fine_before : forall p h o, p_status (run p (h ++ [o])) = Fine -> p_status (run p h) = Fine.
Proof. intros p h o. rewrite run_last. unfold step. destruct (p_status (run p h)) eqn:E; congruence. Qed.
Lemma throw_before : forall p h o, ~ In OThrow (p_out (run p (h ++ [o]))) -> ~ In OThrow (p_out (run p h)).
Proof. intros p h o N X. apply N. rewrite run_last. destruct (step_out (run p h) o) as (l&->). apply in_or_app. auto. Qed.

(** * C32 *)
(** The notifications and reference updates seen of a monitor are those its specified life gives, as long as every call
    returns. *)
Theorem monitor_reports_exact_partial : forall h i,
  p_status (run init h) = Fine -> ~ In OThrow (p_out (run init h)) ->
  shown i (p_out (run init h)) = snd (life_run i Idle h).
Proof.
  intros h i S T. destruct (run_ok i h init inv_init eq_refl S T) as (_&l&E&L).
  change (life_of i (p_entries init)) with Idle in L. cbn [p_out init app] in E. rewrite E, L. reflexivity.
Qed.
Print Assumptions monitor_reports_exact_partial.
Example monitor_reports_exact_ex : p_status (run init heat) = Fine /\ ~ In OThrow (p_out (run init heat)) /\
  shown 7 (p_out (run init heat)) =
    [Notice [Rep 1 (Some 90) EAlerting Custom (Some false)]; Notice [Rep 1 (Some 30) EAlerting Custom (Some true)]].
Proof. vm_compute. ands; auto. intuition discriminate. Qed.

(** While online, a pass reports a threshold once if the state of the alarm has changed since the last pass, and not at all
    otherwise. *)
Theorem threshold_reported_once_partial : forall m var wo h o,
  threshold (n_type m) = true -> Forall (plain m var wo) (h ++ [o]) ->
  p_status (run init (h ++ [o])) = Fine -> ~ In OThrow (p_out (run init (h ++ [o]))) ->
  let s := history m None [] h in
  (is_pass o = true -> changes m (fst s) (snd s) ->
   exists x b, newest s = Some x /\ (b = true <-> ~ past m x) /\
     shown (n_id m) (p_out (run init (h ++ [o]))) = shown (n_id m) (p_out (run init h)) ++
       [Notice [Rep var (if wo then None else Some x) EAlerting (n_conf m) (Some b)]]) /\
  (is_pass o = false \/ ~ changes m (fst s) (snd s) ->
   shown (n_id m) (p_out (run init (h ++ [o]))) = shown (n_id m) (p_out (run init h))).
Proof.
  intros m var wo h o T P S N s.
  pose proof (fine_before _ _ _ S) as S1. pose proof (throw_before _ _ _ N) as N1.
  rewrite (monitor_reports_exact_partial _ (n_id m) S N), (monitor_reports_exact_partial _ (n_id m) S1 N1).
  split.
  - intros O C. rewrite (pass_says m var wo h o T P O). fold s. unfold said. apply changesb_spec in C. rewrite C.
    unfold newest. destruct (snd s) as [|x q] eqn:Q; [discriminate|]. exists x, (negb (pastb m x)). ands; auto.
    rewrite <- pastb_spec. destruct (pastb m x); cbn; split; congruence.
  - intros C. destruct (is_pass o) eqn:O; [|apply (rest_says m var wo); auto]. destruct C as [C|C]; [discriminate|].
    rewrite (pass_says m var wo h o T P O). fold s. unfold said. rewrite <- changesb_spec in C.
    destruct (changesb m (fst s) (snd s)); [congruence|]. destruct (newest s); rewrite app_nil_r; reflexivity.
Qed.
Print Assumptions threshold_reported_once_partial.
(** So after a pass the CSMS knows whether the value is past the threshold. *)
Theorem csms_knows_alarm_partial : forall m var wo h o,
  threshold (n_type m) = true -> Forall (plain m var wo) (h ++ [o]) -> is_pass o = true ->
  p_status (run init (h ++ [o])) = Fine -> ~ In OThrow (p_out (run init (h ++ [o]))) ->
  (believed (shown (n_id m) (p_out (run init (h ++ [o])))) <-> alarming m (newest (history m None [] h))).
Proof.
  intros m var wo h o T P O S N. rewrite (monitor_reports_exact_partial _ (n_id m) S N).
  rewrite <- believedb_spec, <- alarmb_spec. rewrite (believed_last m var wo _ T P). rewrite history_app.
  destruct (history m None [] h) as (k&r). cbn [fst snd history]. rewrite O.
  assert (observed m o = None) as -> by (destruct o; try discriminate O; reflexivity).
  cbn [fst]. unfold newest. cbn [fst snd]. tauto.
Qed.
Print Assumptions csms_knows_alarm_partial.
Example threshold_ex :
  threshold (n_type upper) = true /\ Forall (plain upper 1 false) ([change 20 90] ++ [OTimer (calm 1)]) /\
  p_status (run init ([change 20 90] ++ [OTimer (calm 1)])) = Fine /\ ~ In OThrow (p_out (run init ([change 20 90] ++ [OTimer (calm 1)]))) /\
  changes upper (fst (history upper None [] [change 20 90])) (snd (history upper None [] [change 20 90])) /\
  alarming upper (newest (history upper None [] [change 20 90])).
Proof.
  ands; try reflexivity.
  - apply Forall_cons; [|apply Forall_cons; [|apply Forall_nil]].
    + cbn. intros k [<-|[]] _. auto.
    + cbn. unfold online. cbn. auto.
  - vm_compute. intuition discriminate.
  - cbn. right. unfold past. cbn. lia.
Qed.

(** The triggered pass, which follows every SetVariables request, does not end if and only if there is a periodic
    monitor. *)
Theorem triggered_pass_ends_partial : forall h v,
  p_status (run init h) = Fine -> ~ In OThrow (p_out (run init h)) ->
  (p_status (step (run init h) (OTriggered v)) = Hung <->
   v_enabled v = true /\ exists i t, fst (life_run i Idle h) = Timing t).
Proof.
  intros h v S T. unfold step. rewrite S. destruct (run_ok 0 h init inv_init eq_refl S T) as (I&_).
  rewrite (triggered_hangs v _ I S), (exists_timing _ (proj1 I)).
  assert (L : forall i, life_of i (p_entries (run init h)) = fst (life_run i Idle h)).
  { intros i. destruct (run_ok i h init inv_init eq_refl S T) as (_&l&_&L). change (life_of i (p_entries init)) with Idle in L. rewrite L. reflexivity. }
  split; intros (A&i&t&B); split; auto; exists i, t; [rewrite <- L|rewrite L]; auto.
Qed.
Print Assumptions triggered_pass_ends_partial.
(** The pass of the timer does not end if and only if a periodic monitor is not admitted; otherwise it returns normally. *)
Theorem timer_pass_ends_partial : forall h v,
  p_status (run init h) = Fine -> ~ In OThrow (p_out (run init h)) -> sane v h ->
  let p := step (run init h) (OTimer v) in
  (p_status p = Hung \/ p_status p = Fine /\ ~ In OThrow (p_out p)) /\
  (p_status p = Hung <-> v_enabled v = true /\ exists i t, appear v i (fst (life_run i Idle h)) = Timing t /\ admitted v (t_mon t) = false).
Proof.
  intros h v S T (Q1&Q2) p. unfold p, step. rewrite S. destruct (run_ok 0 h init inv_init eq_refl S T) as (I&_).
  assert (L : forall i, life_of i (p_entries (run init h)) = fst (life_run i Idle h)).
  { intros i. destruct (run_ok i h init inv_init eq_refl S T) as (_&l&_&L). change (life_of i (p_entries init)) with Idle in L. rewrite L. reflexivity. }
  destruct (timer_hangs v (run init h) I S Q1) as (A&B).
  { intros i t X. rewrite L in X. exact (Q2 i t X). }
  split.
  - destruct A as [A|(A&l&E&N)]; [left; auto|right]. split; auto. rewrite E. intros X. apply in_app_or in X. tauto.
  - rewrite B. split; intros (X&i&t&Y); split; auto; exists i, t; [rewrite <- L|rewrite L]; auto.
Qed.
Print Assumptions timer_pass_ends_partial.
(** A pass that the model calls hung takes more iterations than any number. *)
Theorem hung_for_ever : forall v per es uid n,
  loop (S (length es)) v per true (Cur [] es uid []) = None -> loop n v per true (Cur [] es uid []) = None.
Proof. intros. apply loop_more. auto. Qed.
Print Assumptions hung_for_ever.
Definition with_periodic : env := at_ [(1, [every10])] false 5000 5000.
Example pass_ends_ex :
  p_status (run init heat) = Fine /\ ~ In OThrow (p_out (run init heat)) /\ sane with_periodic heat /\
  p_status (step (run init heat) (OTimer with_periodic)) = Fine /\
  p_status (step (run init heat) (OTriggered with_periodic)) = Fine.
Proof.
  ands; try (vm_compute; reflexivity).
  - vm_compute. intuition discriminate.
  - split.
    + cbn. intros var m [E|[]]. injection E as <- <-. cbn. split; [auto|lia].
    + intros i t E. assert (LI : fst (life_run i Idle heat) = Idle).
      { unfold heat, change. cbn [life_run life_step look_all n_id upper Z.eqb]. destruct i as [|[[[|[]|]|[]|]|[]|]|]; try reflexivity. }
      rewrite LI in E. unfold appear, configured in E. cbn in E.
      destruct i as [|[[|[|[]|]|]|[]|]|]; try discriminate; injection E as <-; cbn; repeat split; auto; try lia; discriminate.
Qed.
(** With a periodic monitor set, the next SetVariables request never comes back ... *)
Theorem triggered_pass_hangs_refuted : exists h v,
  p_status (run init h) = Fine /\ v_offline v = false /\ p_status (step (run init h) (OTriggered v)) = Hung.
Proof. exists [OTimer with_periodic], with_periodic. vm_compute. auto. Qed.
(** ... and neither does the timer if the monitoring base or level excludes one. *)
Theorem timer_pass_hangs_refuted : exists v,
  p_status (step init (OTimer v)) = Hung /\ v_base v = BaseFactory.
Proof. exists (Env true false 4 9 BaseFactory 5 5 (fun _ => Some 42) [(1, [every10])]). vm_compute. auto. Qed.
(** A clock-aligned monitor of less than a second, which the device model accepts, is undefined behaviour. *)
Theorem aligned_zero_refuted : exists v,
  p_status (step init (OTimer v)) = Undef /\ v_periodic v = [(1, [Mon 11 3 Aligned 0 Custom None])].
Proof. exists (at_ [(1, [Mon 11 3 Aligned 0 Custom None])] false 5 5). vm_compute. auto. Qed.
(** So is setting a threshold under the id of a periodic monitor. *)
Theorem periodic_to_threshold_refuted : exists h,
  p_status (run init (h ++ [OUpdate (Mon 9 3 Upper 80 Custom None) 1 Number false 20])) = Undef /\ p_status (run init h) = Fine.
Proof. exists [OTimer with_periodic]. vm_compute. auto. Qed.

(** An alarm that comes and goes between two passes is reported as cleared without having been reported. *)
Theorem cleared_without_alarm_refuted : exists h,
  p_status (run init h) = Fine /\ shown 7 (p_out (run init h)) = [Notice [Rep 1 (Some 30) EAlerting Custom (Some true)]].
Proof. exists [change 20 90; change 90 30; OTimer (calm 1)]. vm_compute. auto. Qed.
(** An alarm while offline, within the severity to be queued, is forgotten if the value returns before the station is
    online again. *)
Theorem offline_alarm_lost_refuted : exists h,
  p_status (run init h) = Fine /\ shown 7 (p_out (run init h)) = [] /\
  exists v a b, v_offline v = true /\ admitted v upper = true /\ h = a ++ [change 20 90; OTimer v] ++ b.
Proof.
  exists [change 20 90; OTimer (at_ [] true 1 1); change 90 30; OTimer (at_ [] true 2 2); OTimer (calm 3)].
  split; [vm_compute; reflexivity|]. split; [vm_compute; reflexivity|].
  exists (at_ [] true 1 1), [], [change 90 30; OTimer (at_ [] true 2 2); OTimer (calm 3)]. vm_compute. auto.
Qed.
(** An alarm the CSMS was told of is never cleared for it if the station is offline for one pass and the severity is not
    to be queued. *)
Theorem alarm_never_cleared_refuted : exists h v,
  p_status (run init h) = Fine /\ believed (shown 7 (p_out (run init h))) /\ ~ past upper 30 /\
  v_offline v = true /\ admitted v upper = false /\
  h = [change 20 90; OTimer (calm 1); OTimer v; change 90 30; OTimer (calm 3); OTimer (calm 4)].
Proof.
  exists [change 20 90; OTimer (calm 1); OTimer (Env true true 1 9 BaseAll 2 2 (fun _ => Some 42) []); change 90 30; OTimer (calm 3); OTimer (calm 4)],
    (Env true true 1 9 BaseAll 2 2 (fun _ => Some 42) []).
  split; [vm_compute; reflexivity|]. split; [vm_compute; reflexivity|]. split; [vm_compute; discriminate|]. auto.
Qed.
(** A delta of a number is reported again for every change, however small, until the monitor is set anew: the reference is
    not moved to the value reported. *)
Theorem delta_reported_again_refuted : exists m h,
  n_type m = Delta /\ n_value m = 10 /\
  h = [OChange [m] 1 Number true false 0 20; OTimer (calm 1); OChange [m] 1 Number true false 20 21; OTimer (calm 2)] /\
  shown (n_id m) (p_out (run init h)) = [Notice [Rep 1 (Some 20) EDelta Custom None]; Notice [Rep 1 (Some 21) EDelta Custom None]].
Proof. eexists (Mon 5 3 Delta 10 Custom (Some 0)), _. do 3 (split; [reflexivity|]). vm_compute. reflexivity. Qed.

(** * C62 *)
(** No two events sent have the same number, whatever happens. *)
Theorem event_ids_distinct : forall h, NoDup (map e_id (events_sent (p_out (run init h)))).
Proof. exact ids_distinct. Qed.
Print Assumptions event_ids_distinct.
Example event_ids_ex : map e_id (events_sent (p_out (run init heat))) = [0; 1].
Proof. vm_compute. reflexivity. Qed.

(** A periodic monitor is reported by a pass if and only if more than its interval has gone by since it was last reported
    or first seen; the report has the value of that moment. *)
Theorem periodic_reported_partial : forall m var h v,
  n_type m = Periodic -> 0 <= n_value m -> Forall (tick m var) (h ++ [OTimer v]) ->
  p_status (run init (h ++ [OTimer v])) = Fine -> ~ In OThrow (p_out (run init (h ++ [OTimer v]))) ->
  shown (n_id m) (p_out (run init (h ++ [OTimer v]))) = shown (n_id m) (p_out (run init h)) ++
    match ticks h with
    | [] => []
    | t0 :: q => if last (spaced (1000 * n_value m) t0 q) t0 + 1000 * n_value m <? v_steady v
                 then [Notice [Rep var (v_value v var) EPeriodic (n_conf m) None]] else []
    end.
Proof.
  intros m var h v NT NV P S N.
  pose proof (fine_before _ _ _ S) as S1. pose proof (throw_before _ _ _ N) as N1.
  rewrite (monitor_reports_exact_partial _ (n_id m) S N), (monitor_reports_exact_partial _ (n_id m) S1 N1).
  apply periodic_reports; auto.
Qed.
Print Assumptions periodic_reported_partial.
Definition p_at (t : Z) : op := OTimer (at_ [(1, [every10])] false t t).
Example periodic_reported_ex :
  Forall (tick every10 1) [p_at 0; p_at 6000; p_at 12000; p_at 18000; p_at 23000] /\
  p_status (run init [p_at 0; p_at 6000; p_at 12000; p_at 18000; p_at 23000]) = Fine /\
  shown 9 (p_out (run init [p_at 0; p_at 6000; p_at 12000; p_at 18000; p_at 23000])) =
    [Notice [Rep 1 (Some 42) EPeriodic Custom None]; Notice [Rep 1 (Some 42) EPeriodic Custom None]].
Proof.
  split; [|vm_compute; auto]. repeat apply Forall_cons; try apply Forall_nil; cbn; unfold online; cbn; ands; auto; discriminate.
Qed.
(** The next time of a clock-aligned monitor is the first whole multiple of its interval within the hour, or the next full
    hour, that is not before the present second. *)
Theorem aligned_point_exact : forall now s t, 0 < s -> next_aligned now s = Some t ->
  let start := now - now mod 3600000 in
  let fits x := (exists k, 0 <= k /\ x = start + 1000 * (k * s) /\ x < start + 3600000) \/ x = start + 3600000 in
  fits t /\ now - now mod 1000 <= t /\ (forall x, fits x -> now - now mod 1000 <= x -> t <= x).
Proof.
  intros now s t P E start fits. rewrite next_point_eq in E by lia. injection E as <-. unfold next_point. fold start.
  assert (0 <? s = true) as -> by (apply Z.ltb_lt; lia).
  pose proof (Z.mod_pos_bound now 3600000 ltac:(lia)) as B.
  assert (NM : now - now mod 1000 = start + 1000 * ((now mod 3600000) / 1000)).
  { unfold start. rewrite (Z.mod_eq now 1000), (Z.mod_eq now 3600000) by lia.
    assert (A : now / 1000 = 3600 * (now / 3600000) + (now - 3600000 * (now / 3600000)) / 1000).
    { rewrite <- (Z.div_add_l (3600 * (now / 3600000)) 1000) by lia. f_equal. lia. }
    lia. }
  rewrite NM. set (q := now mod 3600000 / 1000) in *.
  assert (Q : 0 <= q < 3600) by (unfold q; split; [apply Z.div_pos|apply Z.div_lt_upper_bound]; lia).
  clearbody q start. clear NM B.
  pose proof (Z.div_mod q s ltac:(lia)) as D. pose proof (Z.mod_pos_bound q s ltac:(lia)) as Bd.
  pose proof (Z.div_pos q s ltac:(lia) ltac:(lia)) as Dp.
  destruct (q mod s =? 0) eqn:M.
  - apply Z.eqb_eq in M. ands.
    + left. exists (q / s). ands; auto; nia.
    + lia.
    + intros x _ X. lia.
  - apply Z.eqb_neq in M. ands.
    + destruct (Z_lt_le_dec (q - q mod s + s) 3600) as [X|X].
      * left. exists (q / s + 1). ands; try lia; nia.
      * right. lia.
    + lia.
    + intros x [(k&K1&K2&K3)| ->] X; [|lia].
      assert (q < k * s \/ q = k * s) by lia. destruct H as [H|H].
      * assert (q / s < k) by (apply Z.div_lt_upper_bound; nia). nia.
      * exfalso. apply M. rewrite H. apply Z.mod_mul. lia.
Qed.
Print Assumptions aligned_point_exact.
Example aligned_point_ex : next_aligned 1000500 900 = Some 1800000.
Proof. reflexivity. Qed.
(** A clock-aligned monitor is reported twice for one point if two passes fall into its second. *)
Theorem aligned_twice_refuted : exists h,
  h = [OTimer (at_ [(1, [quarter])] false 1 899000); OTimer (at_ [(1, [quarter])] false 2 900300); OTimer (at_ [(1, [quarter])] false 3 900600)] /\
  p_status (run init h) = Fine /\
  shown 11 (p_out (run init h)) = [Notice [Rep 1 (Some 42) EPeriodic Custom None]; Notice [Rep 1 (Some 42) EPeriodic Custom None]].
Proof. eexists. split; [reflexivity|]. vm_compute. auto. Qed.
