(** Requests and histories: the statements behind Sc16Properties. *)
From Coq Require Import ZArith List Bool Lia Sorted Permutation.
From Verif Require Import Prof16Model Prof16Spec Prof16Proofs Sc16Model Sc16Spec Sc16Proofs Sc16Proofs2 Sc16Proofs3 Sc16Proofs4 Sc16Proofs5.
Import ListNotations.
Open Scope Z_scope.

(** ** recurring schedules *)

Lemma recur_day r : recur_seconds r = day_or_week r.
Proof. destruct r; reflexivity. Qed.
Lemma day_pos r : 0 < day_or_week r.
Proof. destruct r; reflexivity. Qed.

Lemma recurring_starts in_now in_end session p r s x :
  pf_kind p = Recurring -> pf_recur p = Some r -> sc_start (pf_sched p) = Some s ->
  secs in_now <= secs in_end ->
  (In x (calculate_start in_now in_end session p) <->
   (x - secs s) mod day_or_week r = 0 /\ secs in_now < x + day_or_week r /\ x <= secs in_end).
Proof.
  intros Hk Hr Hs Hw. unfold calculate_start. rewrite Hk, Hr, Hs. rewrite recur_day.
  change (floor_seconds s) with (secs s). change (floor_seconds in_now) with (secs in_now).
  change (floor_seconds in_end) with (secs in_end).
  set (P := day_or_week r). assert (HP : 0 < P) by apply day_pos.
  pose proof (first_occ_mod (secs in_now) (secs s) P HP) as F. unfold first_occ in F. cbn zeta in F.
  cbn zeta. rewrite F. clear F.
  set (fo := secs in_now - (secs in_now - secs s) mod P).
  pose proof (Z.mod_pos_bound (secs in_now - secs s) P HP) as B.
  pose proof (Z.div_mod (secs in_now - secs s) P ltac:(lia)) as DM.
  set (k0 := (secs in_now - secs s) / P) in *.
  assert (Hfo : fo = secs s + P * k0) by (unfold fo; lia).
  split.
  - intros Hin. apply in_split in Hin as (pre & rest & E).
    apply occurrences_split in E as (E1 & E2 & _); [|exact HP].
    split; [|split; [unfold fo in E1; nia|exact E2]].
    replace (x - secs s) with ((k0 + Z.of_nat (length pre)) * P) by nia. apply Z.mod_mul. lia.
  - intros (M & L & U). set (k := (x - secs s) / P).
    assert (Ex : x = secs s + P * k) by (pose proof (Z.div_mod (x - secs s) P ltac:(lia)); unfold k; lia).
    assert (Hk0 : k0 <= k) by nia.
    destruct (occurrences_has (Z.to_nat ((secs in_end - fo) / P + 1)) fo P (secs in_end) (Z.to_nat (k - k0)))
      as (pre & rest & Eo); [exact HP| | |].
    + assert (k - k0 <= (secs in_end - fo) / P) by (apply Z.div_le_lower_bound; nia).
      apply Z2Nat.inj_lt; lia.
    + rewrite Z2Nat.id by lia. nia.
    + rewrite Eo. rewrite Z2Nat.id by lia. apply in_or_app. right. left. nia.
Qed.

Lemma recurring_first in_now in_end session p r s :
  pf_kind p = Recurring -> pf_recur p = Some r -> sc_start (pf_sched p) = Some s ->
  secs in_now <= secs in_end ->
  exists f rest, calculate_start in_now in_end session p = f :: rest /\
    forall y, (y - secs s) mod day_or_week r = 0 /\ y <= secs in_now < y + day_or_week r <-> y = f.
Proof.
  intros Hk Hr Hs Hw. unfold calculate_start. rewrite Hk, Hr, Hs. rewrite recur_day.
  change (floor_seconds s) with (secs s). change (floor_seconds in_now) with (secs in_now).
  change (floor_seconds in_end) with (secs in_end).
  set (P := day_or_week r). assert (HP : 0 < P) by apply day_pos.
  pose proof (first_occ_mod (secs in_now) (secs s) P HP) as F. unfold first_occ in F. cbn zeta in F.
  cbn zeta. rewrite F. clear F.
  set (fo := secs in_now - (secs in_now - secs s) mod P).
  pose proof (Z.mod_pos_bound (secs in_now - secs s) P HP) as B.
  pose proof (Z.div_mod (secs in_now - secs s) P ltac:(lia)) as DM.
  assert (Hd : 0 <= (secs in_end - fo) / P) by (apply Z.div_pos; unfold fo; lia).
  destruct (Z.to_nat ((secs in_end - fo) / P + 1)) as [|m] eqn:Em; [lia|].
  cbn [occurrences]. destruct (Z.leb_spec fo (secs in_end)); [|unfold fo in *; lia].
  eexists _, _. split; [reflexivity|]. intros y. split.
  - intros (M & L). pose proof (Z.div_mod (y - secs s) P ltac:(lia)) as D2.
    set (a := (y - secs s) / P) in *. set (b := (secs in_now - secs s) / P) in *.
    assert (a = b) by nia. unfold fo. lia.
  - intros ->. split.
    + replace (fo - secs s) with ((secs in_now - secs s) / P * P) by (unfold fo; lia). apply Z.mod_mul. lia.
    + unfold fo. lia.
Qed.

(** ** GetCompositeSchedule *)

Lemma clamp_window a len : 0 <= len <= 2147483647 -> elapsed_seconds (a + len) a = len.
Proof.
  intros H. unfold elapsed_seconds, clamp_int, INT_MAX. replace (a + len - a) with len by lia.
  destruct (Z.leb_spec len 2147483647); [rewrite Z.mod_small by lia; lia|lia].
Qed.

Definition to_csp (o : operiod) : csp :=
  {| sp_start := op_start o; sp_limit := op_limit o; sp_phases := op_phases o |}.

Lemma look_map l o : look sp_start (map to_csp l) o = option_map to_csp (look op_start l o).
Proof.
  induction l as [|x l IH]; cbn [map look]; [reflexivity|].
  change (sp_start (to_csp x)) with (op_start x). destruct (op_start x <=? o); [|reflexivity].
  rewrite IH. destruct (look op_start l o); reflexivity.
Qed.

Section Requests.
  Variable ar : arith.
  Variables sort_date sort_stack : list entry -> list entry.
  Hypothesis sd : sorts sort_date by_start.
  Hypothesis ss : sorts sort_stack by_stack.

  Lemma get_unfold g k h now conns maxd conn dur r offline u :
    0 <= conn <= conns -> answer_unit g r u ->
    get_composite_schedule ar sort_date sort_stack g k h now conns maxd conn dur r offline =
    Some (let x := calculate_enhanced_composite_schedule ar sort_date sort_stack k h (secs now * NS)
                     (secs now * NS + Z.min maxd dur * NS) conn u offline true in
          (fst (fst x), snd (fst x), map to_csp (snd x))).
  Proof.
    intros Hc Hu. unfold get_composite_schedule.
    destruct (Z.ltb_spec conns conn); [lia|]. destruct (Z.ltb_spec conn 0); [lia|]. cbn [orb].
    change (floor_seconds now) with (secs now). unfold calculate_composite_schedule. cbn zeta.
    destruct r as [x|]; cbn in Hu.
    - destruct Hu as [Hu ->]. replace (existsb (unit_eqb x) (g_units g)) with true.
      2:{ symmetry. apply existsb_exists. exists x. split; [exact Hu|]. apply unit_eqb_iff. reflexivity. }
      cbn [negb]. destruct (calculate_enhanced_composite_schedule _ _ _ _ _ _ _ _ _ _ _) as [[a b] c]. reflexivity.
    - destruct Hu as (l & ->). cbn [hd_error].
      destruct (calculate_enhanced_composite_schedule _ _ _ _ _ _ _ _ _ _ _) as [[a b] c]. reflexivity.
  Qed.

  Lemma floor_mul x : floor_seconds (x * NS) = x.
  Proof. unfold floor_seconds. apply Z.div_mul. unfold NS. lia. Qed.
  Lemma floor_mul2 x y : floor_seconds (x * NS + y * NS) = x + y.
  Proof. rewrite <- Z.mul_add_distr_r. apply floor_mul. Qed.

  Lemma get_rejects g k h now conns maxd conn dur r offline :
    g_units g <> [] ->
    (get_composite_schedule ar sort_date sort_stack g k h now conns maxd conn dur r offline = None <->
     ~ (0 <= conn <= conns) \/ exists u, r = Some u /\ ~ In u (g_units g)).
  Proof.
    intros Hne. split.
    - intros H. destruct (Z.lt_ge_cases conn 0); [left; lia|]. destruct (Z.lt_ge_cases conns conn); [left; lia|].
      right. destruct r as [u|].
      + exists u. split; [reflexivity|]. intros Hin.
        rewrite (get_unfold g k h now conns maxd conn dur (Some u) offline u) in H; [discriminate|lia|cbn; auto].
      + destruct (g_units g) as [|u l] eqn:E; [congruence|].
        rewrite (get_unfold g k h now conns maxd conn dur None offline u) in H; [discriminate|lia|cbn; rewrite E; eauto].
    - intros H. unfold get_composite_schedule.
      destruct (Z.ltb_spec conns conn); [reflexivity|]. destruct (Z.ltb_spec conn 0); [reflexivity|]. cbn [orb].
      destruct H as [H|(u & -> & Hn)]; [lia|].
      replace (existsb (unit_eqb u) (g_units g)) with false; [reflexivity|].
      symmetry. apply not_true_is_false. intros E. apply existsb_exists in E as (x & Hx & Ex).
      apply unit_eqb_iff in Ex as <-. exact (Hn Hx).
  Qed.

  Lemma get_connector g k h now conns maxd conn dur r (offline : bool) u :
    handler_ok h ->
    let len := Z.min maxd dur in
    let ignored := (if offline then k_offline_ignored k else []) in
    0 < conn <= conns -> 0 < len <= 2147483647 -> answer_unit g r u ->
    (forall p, applicable h conn ignored p ->
       usable (secs now) (secs now + len) (session_start h conn) p) ->
    exists l,
      get_composite_schedule ar sort_date sort_stack g k h now conns maxd conn dur r offline =
        Some (secs now, len, l) /\
      forall t, secs now <= t < secs now + len ->
        exists c tx txd mx,
          look sp_start l (t - secs now) = Some c /\
          decides (applicable h conn ignored) PTx (secs now) (session_start h conn) t tx /\
          decides (applicable h conn ignored) PTxDefault (secs now) (session_start h conn) t txd /\
          decides (applicable h conn ignored) PMax (secs now) (session_start h conn) t mx /\
          let a := strictest (allowed_by (override tx txd)) (allowed_by mx) in
          sp_limit c = fst (expressed ar u (match u with UA => k_current k | UW => k_power k end)
                              (k_phases k) (k_voltage k) a) /\
          sp_phases c = a_phases a.
  Proof.
    intros Hok len ignored Hc Hl Hu Hp.
    rewrite (get_unfold g k h now conns maxd conn dur r offline u) by (lia || exact Hu). fold len. cbn zeta.
    pose proof (composite_window ar sort_date sort_stack k h (secs now * NS) (secs now * NS + len * NS)
                  conn u offline true) as W.
    rewrite floor_mul, floor_mul2 in W.
    pose proof (connector_ok ar sort_date sort_stack sd ss (secs now * NS) (secs now * NS + len * NS)) as C.
    rewrite floor_mul, floor_mul2 in C.
    specialize (C ltac:(unfold INT_MAX; lia) h Hok k u offline true conn ltac:(lia) Hp). cbn zeta in C.
    destruct (calculate_enhanced_composite_schedule ar sort_date sort_stack k h (secs now * NS)
                (secs now * NS + len * NS) conn u offline true) as [[a b] out].
    cbn [fst snd] in *. injection W as -> ->.
    exists (map to_csp out). split.
    - f_equal. f_equal. f_equal. apply clamp_window; lia.
    - intros t Ht. destruct (C t Ht) as (o & tx & txd & mx & L & D1 & D2 & D3 & E1 & E2).
      exists (to_csp o), tx, txd, mx. rewrite look_map, L. split; [reflexivity|].
      split; [exact D1|]. split; [exact D2|]. split; [exact D3|].
      assert (Ha : active (session_start h conn) true = true) by (destruct (session_start h conn); reflexivity).
      rewrite Ha in E1, E2. cbn [connector_allows] in E1, E2. cbn zeta. rewrite <- E1. split; [reflexivity|exact E2].
  Qed.

  Lemma get_station g k h now conns maxd dur r (offline : bool) u :
    handler_ok h -> (1 < length (h_conns h))%nat ->
    let len := Z.min maxd dur in
    let ignored := (if offline then k_offline_ignored k else []) in
    0 <= conns -> 0 < len <= 2147483647 -> answer_unit g r u ->
    (forall conn p, applicable h conn ignored p ->
       usable (secs now) (secs now + len) (session_start h conn) p) ->
    exists l,
      get_composite_schedule ar sort_date sort_stack g k h now conns maxd 0 dur r offline =
        Some (secs now, len, l) /\
      forall t, secs now <= t < secs now + len ->
        exists c parts mx,
          look sp_start l (t - secs now) = Some c /\
          length parts = (length (h_conns h) - 1)%nat /\
          (forall i x, nth_error parts i = Some x ->
             decides (applicable h (1 + Z.of_nat i) ignored) PTx (secs now) (session_start h (1 + Z.of_nat i)) t (fst x) /\
             decides (applicable h (1 + Z.of_nat i) ignored) PTxDefault (secs now) (session_start h (1 + Z.of_nat i)) t (snd x)) /\
          decides (applicable h 0 ignored) PMax (secs now) None t mx /\
          let a := strictest (allowed_sum ar (k_current k) (k_power k)
                                (map (fun x => allowed_by (override (fst x) (snd x))) parts))
                             (allowed_by mx) in
          sp_limit c = fst (expressed ar u (match u with UA => k_current k | UW => k_power k end)
                              (k_phases k) (k_voltage k) a) /\
          sp_phases c = a_phases a.
  Proof.
    intros Hok Hn len ignored Hc Hl Hu Hp.
    rewrite (get_unfold g k h now conns maxd 0 dur r offline u) by (lia || exact Hu). fold len. cbn zeta.
    pose proof (composite_window ar sort_date sort_stack k h (secs now * NS) (secs now * NS + len * NS)
                  0 u offline true) as W.
    rewrite floor_mul, floor_mul2 in W.
    pose proof (station_ok ar sort_date sort_stack sd ss (secs now * NS) (secs now * NS + len * NS)) as C.
    rewrite floor_mul, floor_mul2 in C.
    specialize (C ltac:(unfold INT_MAX; lia) h Hok k u offline true Hn Hp). cbn zeta in C.
    destruct (calculate_enhanced_composite_schedule ar sort_date sort_stack k h (secs now * NS)
                (secs now * NS + len * NS) 0 u offline true) as [[a b] out].
    cbn [fst snd] in *. injection W as -> ->.
    exists (map to_csp out). split.
    - f_equal. f_equal. f_equal. apply clamp_window; lia.
    - intros t Ht. destruct (C t Ht) as (o & parts & mx & L & Lp & D1 & D3 & E1 & E2).
      exists (to_csp o), parts, mx. rewrite look_map, L. split; [reflexivity|].
      assert (Ltl : length (tl (h_conns h)) = (length (h_conns h) - 1)%nat) by (destruct (h_conns h); cbn; lia).
      split; [congruence|]. split.
      { intros i x Hx.
        destruct (nth_error (tl (h_conns h)) i) as [c|] eqn:Ec.
        - replace (session_start h (1 + Z.of_nat i)) with (session_of c); [exact (D1 i c x Ec Hx)|].
          unfold session_start. replace (Z.to_nat (1 + Z.of_nat i)) with (S i) by lia.
          destruct (h_conns h) as [|c0 cs]; [destruct i; discriminate|]. cbn [nth_error]. cbn [tl] in Ec. rewrite Ec. reflexivity.
        - exfalso. apply nth_error_None in Ec. rewrite <- Lp in Ec. apply nth_error_None in Ec. congruence. }
      split; [exact D3|]. cbn zeta.
      assert (Es : station_sum ar h k true parts =
                   allowed_sum ar (k_current k) (k_power k) (map (fun x => allowed_by (override (fst x) (snd x))) parts)).
      { unfold station_sum, all_connectors_allow. f_equal. revert Lp. generalize (tl (h_conns h)). clear.
        induction parts as [|x parts IH]; intros [|c cs] Lp; cbn in *; try reflexivity; try discriminate.
        f_equal; [|apply IH; congruence]. destruct (session_of c); reflexivity. }
      rewrite <- Es. rewrite <- E1. split; [reflexivity|exact E2].
  Qed.

  Lemma get_wf g k h now conns maxd conn dur r offline s d l :
    Z.min maxd dur <= 2147483647 ->
    get_composite_schedule ar sort_date sort_stack g k h now conns maxd conn dur r offline = Some (s, d, l) ->
    s = secs now /\ (0 <= Z.min maxd dur -> d = Z.min maxd dur) /\
    ascending sp_start l /\ (exists c r, l = c :: r /\ sp_start c = 0) /\
    (0 < Z.min maxd dur -> Forall (fun c => 0 <= sp_start c < Z.min maxd dur) l).
  Proof.
    intros Hl E.
    assert (Hc : 0 <= conn <= conns).
    { unfold get_composite_schedule in E. destruct (Z.ltb_spec conns conn); [discriminate|].
      destruct (Z.ltb_spec conn 0); [discriminate|]. lia. }
    assert (Hu : exists u, answer_unit g r u).
    { unfold get_composite_schedule in E. destruct (_ || _); [discriminate|]. destruct r as [x|]; cbn.
      - exists x. destruct (existsb (unit_eqb x) (g_units g)) eqn:Ex; [|discriminate].
        apply existsb_exists in Ex as (y & Hy & Ey). apply unit_eqb_iff in Ey as <-. auto.
      - destruct (g_units g) as [|y ys]; [discriminate|]. exists y, ys. reflexivity. }
    destruct Hu as (u & Hu). rewrite (get_unfold _ _ _ _ _ _ _ _ _ _ u Hc Hu) in E. cbn zeta in E.
    set (len := Z.min maxd dur) in *.
    pose proof (composite_window ar sort_date sort_stack k h (secs now * NS) (secs now * NS + len * NS)
                  conn u offline true) as W.
    pose proof (composite_struct ar sort_date sort_stack k h (secs now * NS) (secs now * NS + len * NS)
                  conn u offline true) as S.
    rewrite floor_mul, floor_mul2 in W, S.
    specialize (S ltac:(intros x; symmetry; apply Permutation_length; apply ss) ltac:(unfold INT_MAX; lia)).
    destruct (calculate_enhanced_composite_schedule ar sort_date sort_stack k h (secs now * NS)
                (secs now * NS + len * NS) conn u offline true) as [[a b] out].
    cbn [fst snd] in *. injection W as -> ->. injection E as <- <- <-.
    split; [reflexivity|]. split.
    { intros H0. apply clamp_window; lia. }
    destruct S as (S1 & S2 & S3 & S4). replace (secs now + len - secs now) with len in * by lia.
    split; [|split].
    - unfold ascending in *. clear -S1. induction S1 as [|x xs _ IH Hx]; cbn [map]; constructor; [exact IH|].
      apply Forall_map. exact Hx.
    - destruct S2 as (x & rest & -> & H0). exists (to_csp x), (map to_csp rest). split; [reflexivity|exact H0].
    - intros H0. apply Forall_map. exact (S3 H0).
  Qed.
End Requests.

(** ** acceptance and installation *)

Lemma set_accepted g h now conn p :
  0 <= g_max_periods g <= 2147483647 -> int32 conn ->
  (snd (set_charging_profile g h now conn p) = true <->
   In (pf_purpose p) (g_purposes g) /\ acceptable g h conn false p).
Proof.
  intros Hb Hi. rewrite set_unfold.
  destruct (existsb (purpose_eqb (pf_purpose p)) (g_purposes g)) eqn:Ep; cbn [negb].
  - apply in_purposes in Ep. destruct (validate_profile g h now p conn false) as [q|] eqn:Ev; cbn [snd].
    + apply validate_iff in Ev; [|exact Hb|exact Hi]. tauto.
    + split; [discriminate|]. intros [_ Ha].
      assert (X : validate_profile g h now p conn false = Some (completed now p)) by (apply validate_iff; auto).
      congruence.
  - cbn. split; [discriminate|]. intros [H _]. apply in_purposes in H. congruence.
Qed.

Lemma set_rejected g h now conn p :
  snd (set_charging_profile g h now conn p) = false -> fst (set_charging_profile g h now conn p) = h.
Proof.
  rewrite set_unfold. destruct (negb _); [reflexivity|].
  destruct (validate_profile g h now p conn false); [discriminate|reflexivity].
Qed.

Lemma set_installs g h now conn p w q :
  0 <= g_max_periods g <= 2147483647 -> int32 conn -> handler_ok h ->
  snd (set_charging_profile g h now conn p) = true ->
  (holds (fst (set_charging_profile g h now conn p)) w q <->
   (target h conn p w /\ q = completed now p) \/
   (holds h w q /\ pf_id q <> pf_id p /\ ~ (target h conn p w /\ pf_stack q = pf_stack p))).
Proof.
  intros Hb Hi Hok Ha. pose proof Ha as Hx. apply set_accepted in Hx as [_ Hx]; [|exact Hb|exact Hi].
  rewrite set_unfold in *. destruct (negb _); [discriminate|].
  destruct (validate_profile g h now p conn false) as [x|] eqn:Ev; [|discriminate]. cbn [fst].
  apply validate_iff in Ev as [_ ->]; [|exact Hb|exact Hi].
  destruct Hx as (A1 & _ & _ & _ & _ & _ & _ & _ & A9).
  apply (set_holds h conn (completed now p) w q Hok A1); cbn; intros E; rewrite E in A9; tauto.
Qed.

Lemma set_transactions g h now conn p : transactions (fst (set_charging_profile g h now conn p)) = transactions h.
Proof.
  rewrite set_unfold. destruct (negb _); [reflexivity|].
  destruct (validate_profile g h now p conn false); [|reflexivity]. cbn [fst].
  rewrite add_transactions. apply cleared_tx.
Qed.

Lemma set_stored g h now conn p r :
  0 <= g_max_periods g <= 2147483647 -> int32 conn -> handler_ok h ->
  snd (set_charging_profile g h now conn p) = true ->
  In (conn, completed now p) (h_db (fst (set_charging_profile g h now conn p))) /\
  (In r (h_db (fst (set_charging_profile g h now conn p))) ->
   r = (conn, completed now p) \/ In r (h_db h) /\ pf_id (snd r) <> pf_id p).
Proof.
  intros Hb Hi Hok Ha. pose proof Ha as Hx. apply set_accepted in Hx as [_ Hx]; [|exact Hb|exact Hi].
  rewrite set_unfold in *. destruct (negb _); [discriminate|].
  destruct (validate_profile g h now p conn false) as [x|] eqn:Ev; [|discriminate]. cbn [fst].
  apply validate_iff in Ev as [_ ->]; [|exact Hb|exact Hi].
  destruct Hx as (A1 & _ & _ & _ & _ & _ & _ & _ & A9). rewrite add_db.
  assert (Ec : match pf_purpose (completed now p) with PMax => 0 | _ => conn end = conn).
  { cbn. destruct (pf_purpose p); try reflexivity. symmetry; apply A9. }
  rewrite Ec. split; [apply in_db_insert; left; reflexivity|].
  intros H. apply in_db_insert in H as [H|(H & N & _)]; [left; exact H|right].
  split; [|exact N]. unfold cleared_for in H.
  apply clear_all_db in H as [H _]; [|apply clear_all_ok; exact Hok|reflexivity].
  apply clear_all_db in H as [H _]; [exact H|exact Hok|reflexivity].
Qed.

Lemma remote_accepted g h now conn p :
  0 <= g_max_periods g <= 2147483647 -> (forall c, conn = Some c -> int32 c) ->
  (remote_start_profile g h now conn p <> None <->
   exists c, conn = Some c /\ pf_purpose p = PTx /\ acceptable g h c true p).
Proof.
  intros Hb Hi. unfold remote_start_profile. destruct conn as [c|].
  2:{ split; [congruence|]. intros (c & E & _); discriminate. }
  destruct (purpose_eqb (pf_purpose p) PTx) eqn:Ep.
  2:{ split; [congruence|]. intros (c' & _ & E & _). apply purpose_eqb_iff in E. congruence. }
  apply purpose_eqb_iff in Ep.
  destruct (validate_profile g h now p c true) as [q|] eqn:Ev.
  - apply validate_iff in Ev as [Ha _]; [|exact Hb|exact (Hi c eq_refl)]. split; [intros _; eauto|discriminate].
  - split; [congruence|]. intros (c' & E & _ & Ha). injection E as <-.
    assert (X : validate_profile g h now p c true = Some (completed now p)) by (apply validate_iff; auto; exact (Hi c eq_refl)).
    congruence.
Qed.

Lemma remote_installs g h now c p h' w q :
  0 <= g_max_periods g <= 2147483647 -> int32 c -> handler_ok h ->
  remote_start_profile g h now (Some c) p = Some h' ->
  (holds h' w q <-> (w = AtTx c /\ q = completed now p) \/
                    (holds h w q /\ ~ (w = AtTx c /\ pf_stack q = pf_stack p))) /\
  transactions h' = transactions h.
Proof.
  intros Hb Hi Hok. unfold remote_start_profile.
  destruct (purpose_eqb (pf_purpose p) PTx) eqn:Ep; [|discriminate]. apply purpose_eqb_iff in Ep.
  destruct (validate_profile g h now p c true) as [x|] eqn:Ev; [|discriminate].
  apply validate_iff in Ev as [Ha ->]; [|exact Hb|exact Hi]. intros E. injection E as <-.
  destruct Ha as (A1 & _ & _ & _ & _ & _ & _ & _ & A9). rewrite Ep in A9.
  replace (add_tx_profile h (completed now p) c) with (add_by_purpose h (completed now p) c)
    by (unfold add_by_purpose; cbn; rewrite Ep; reflexivity).
  split; [|apply add_transactions].
  rewrite add_holds by (exact Hok || lia).
  pose proof (target_iff h c (completed now p) w A1) as T.
  assert (Ht : target h c (completed now p) w <-> w = AtTx c) by (unfold target; cbn; rewrite Ep; tauto).
  cbn [pf_stack completed] in *. split.
  - intros [(T1 & T2 & ->)|(H1 & H2)].
    + left. split; [apply Ht, T; auto|reflexivity].
    + right. split; [exact H1|]. intros (Ew & Es). apply H2. split; [|exact Es]. apply Ht, T in Ew. tauto.
  - intros [(Ew & ->)|(H1 & H2)].
    + left. apply Ht, T in Ew. tauto.
    + right. split; [exact H1|]. intros (T1 & Es). apply H2. split; [|exact Es]. apply Ht, T.
      split; [exact T1|exact (holds_some h w q H1)].
Qed.

(** ** identifiers along a history *)

Lemma run_snoc g n os o : run g n (os ++ [o]) = step g (run g n os) o.
Proof. unfold run. rewrite fold_left_app. reflexivity. Qed.

Lemma unique_sub h h' : (forall w q, holds h' w q -> holds h w q) -> unique_ids h -> unique_ids h'.
Proof. intros Hs Hu w1 w2 p1 p2 H1 H2. apply Hu with w1 w2; apply Hs; assumption. Qed.

Lemma clear_sub h f w q : handler_ok h -> holds (fst (clear_charging_profile h f)) w q -> holds h w q.
Proof.
  intros Hok H.
  assert (D : some_criterion f \/ f = {| f_id := None; f_conn := None; f_stack := None; f_purpose := None |}).
  { unfold some_criterion. destruct f as [[?|] [?|] [?|] [?|]]; cbn; (right; reflexivity) || (left; intuition congruence). }
  destruct (clear_charging_profile h f) as [h' ok] eqn:E. cbn [fst] in H.
  destruct D as [D|D].
  - apply (proj1 (clear_spec h f h' ok Hok D E) w q) in H. tauto.
  - subst f. exfalso. exact (proj1 (proj2 (clear_everything h h' ok E)) w q H).
Qed.

Lemma fresh_holds n w q : ~ holds (fresh n) w q.
Proof.
  intros H.
  assert (K : fresh n = emptied (repeat None (S n)) (fresh n)).
  { unfold fresh, emptied. cbn [h_db]. f_equal. generalize (S n). intros m.
    induction m as [|m IH]; cbn [repeat map]; [reflexivity|]. f_equal. exact IH. }
  rewrite K in H. exact (emptied_holds _ _ _ _ H).
Qed.

Section Histories.
  Variable g : cfg.
  Hypothesis bounds : 0 <= g_max_periods g <= 2147483647.

  Lemma run_unique n os : machine_ids os -> no_remote_start os -> unique_ids (run g n os).
  Proof.
    intros Hm Hr. revert Hm Hr. induction os as [|o os IH] using rev_ind; intros Hm Hr.
    - intros w1 w2 p1 p2 H _ _. exfalso. unfold run in H. cbn [fold_left] in H.
      exact (fresh_holds n _ _ H).
    - unfold machine_ids, no_remote_start in *. apply Forall_app in Hm as [Hm Hmo]. apply Forall_app in Hr as [Hr Hro].
      specialize (IH Hm Hr). rewrite run_snoc. pose proof (run_ok g n os) as Hok.
      pose proof (run_db_ok g bounds n os Hm) as Hd.
      inversion Hmo as [|? ? Hmo' _]; subst. inversion Hro as [|? ? Hro' _]; subst.
      set (h := run g n os) in *. destruct o; cbn [step].
      + destruct (snd (set_charging_profile g h now conn p)) eqn:Ea.
        * pose proof Ea as Hx. apply set_accepted in Hx as [_ Hx]; [|exact bounds|exact Hmo'].
          intros w1 w2 p1 p2 H1 H2 Ei.
          apply (set_installs g h now conn p) in H1; try assumption.
          apply (set_installs g h now conn p) in H2; try assumption.
          destruct H1 as [(_ & ->)|(H1 & N1 & _)], H2 as [(_ & ->)|(H2 & N2 & _)].
          -- reflexivity.
          -- cbn in Ei. congruence.
          -- cbn in Ei. congruence.
          -- exact (IH w1 w2 p1 p2 H1 H2 Ei).
        * rewrite (set_rejected _ _ _ _ _ Ea). exact IH.
      + contradiction.
      + apply (unique_sub h); [|exact IH]. intros w q. apply clear_sub. exact Hok.
      + apply (unique_sub h); [|exact IH]. intros w q.
        apply (same_maps_holds h). intros w'. apply set_tx_map_at.
      + apply (unique_sub h); [|exact IH]. intros w q Hq. apply stopped_holds in Hq; tauto.
      + apply (unique_sub h); [|exact IH]. intros w q Hq. apply expire_holds in Hq. tauto.
      + destruct (restart_db_ok g bounds h now None resumed Hd) as [(D1 & _) Sync].
        intros w1 w2 p1 p2 H1 H2 Ei. apply Sync in H1 as (c1 & R1 & _). apply Sync in H2 as (c2 & R2 & _).
        assert (X : (c1, p1) = (c2, p2)) by (apply (nodup_id _ _ _ D1); assumption). congruence.
  Qed.

  (** *** TxProfiles and transactions *)

  Definition tx_bound (h : handler) : Prop :=
    forall i q, holds h (AtTx i) q ->
      exists t ts, running h i = Some (t, ts) /\ (pf_tx q = None \/ pf_tx q = Some t).

  Lemma running_tx h h' : transactions h' = transactions h -> forall i, running h' i = running h i.
  Proof.
    intros E i. unfold running, connector_at. destruct (i <? 0); [reflexivity|].
    assert (K : forall hh, match nth_error (h_conns hh) (Z.to_nat i) with Some c => c_tx c | None => None end =
                 match nth_error (transactions hh) (Z.to_nat i) with Some t => t | None => None end).
    { intros hh. unfold transactions. rewrite nth_error_map. destruct (nth_error (h_conns hh) (Z.to_nat i)); reflexivity. }
    rewrite !K, E. reflexivity.
  Qed.

  Lemma tx_bound_sub h h' :
    transactions h' = transactions h -> (forall w q, holds h' w q -> holds h w q) -> tx_bound h -> tx_bound h'.
  Proof.
    intros E Hs Hb i q Hq. rewrite (running_tx h h' E). apply Hb. apply Hs. exact Hq.
  Qed.

  Lemma tx_bound_add h p conn :
    handler_ok h -> 0 <= conn < Z.of_nat (length (h_conns h)) ->
    (pf_purpose p = PTx -> exists c, nth_error (h_conns h) (Z.to_nat conn) = Some c /\ tx_agrees false c p) ->
    tx_bound h -> tx_bound (add_by_purpose h p conn).
  Proof.
    intros Hok Hc Hp Hb i q Hq. rewrite (running_tx h) by apply add_transactions.
    apply add_holds in Hq as [(T1 & T2 & ->)|(H1 & _)]; [|exact (Hb i q H1)|exact Hok|lia].
    unfold target_b in T1. destruct (pf_purpose p); try discriminate. apply Z.eqb_eq in T1.
    destruct (Hp eq_refl) as (c & Ec & Ha). unfold running, connector_at.
    subst i. destruct (Z.ltb_spec conn 0); [lia|]. rewrite Ec. unfold tx_agrees in Ha.
    destruct (c_tx c) as [[t ts]|]; [|destruct Ha; discriminate]. eauto.
  Qed.

  Lemma tx_bound_load now ps : forall h,
    (forall r, In r (h_db h) -> int32 (fst r)) ->
    handler_ok h -> tx_bound h -> tx_bound (load_rows g now h ps).
  Proof.
    induction ps as [|p ps IH]; intros h Hi Hok Hb; cbn [load_rows]; [exact Hb|].
    destruct (find (fun x => pf_id (snd x) =? pf_id p) (h_db h)) as [[conn r]|] eqn:Ef; [|apply IH; assumption].
    apply find_some in Ef as [Hin _].
    assert (Hdrop : tx_bound (load_rows g now (set_db h (db_delete (pf_id p) (h_db h))) ps)).
    { apply IH.
      - intros x Hx. apply Hi. cbn in Hx. apply in_db_delete in Hx. tauto.
      - apply (same_maps_ok h); [|reflexivity|exact Hok]. intros [| |]; reflexivity.
      - exact Hb. }
    destruct (validate_profile g h now p conn false) as [p'|] eqn:Ev; [|exact Hdrop].
    destruct (existsb (purpose_eqb (pf_purpose p')) (g_purposes g)); [|exact Hdrop].
    destruct (validate_basic _ _ _ _ _ _ _ Ev) as (V1 & V0 & _ & _ & V2 & V3).
    apply validate_iff in Ev as [Ha ->]; [|exact bounds|exact (Hi _ Hin)].
    destruct Ha as (A1 & _ & _ & _ & _ & _ & _ & _ & A9).
    apply IH.
    - intros x Hx. rewrite add_db in Hx. apply in_db_insert in Hx as [->|(Hx & _)]; [|exact (Hi x Hx)].
      cbn. pose proof (Hi _ Hin) as K. cbn in K. destruct (pf_purpose p); [|exact K|exact K]. unfold int32. lia.
    - apply add_ok; assumption.
    - apply tx_bound_add; [exact Hok|exact A1| |exact Hb]. cbn. intros E. rewrite E in A9. destruct A9 as (_ & c & Ec & Ht). exists c. split; [exact Ec|exact Ht].
  Qed.

  Lemma running_nonneg h i t : running h i = Some t -> 0 <= i.
  Proof. unfold running, connector_at. destruct (Z.ltb_spec i 0); [discriminate|lia]. Qed.

  Lemma run_tx_bound n os :
    machine_ids os -> no_remote_start os -> idle_starts g n os -> tx_bound (run g n os).
  Proof.
    induction os as [|o os IH] using rev_ind; intros Hm Hr Hs.
    - intros i q H. exfalso. unfold run in H. cbn [fold_left] in H.
      exact (fresh_holds n _ _ H).
    - assert (Hs' : idle_starts g n os).
      { intros pre conn id ts post E. apply (Hs pre conn id ts (post ++ [o])). rewrite E, <- app_assoc. reflexivity. }
      unfold machine_ids, no_remote_start in *. apply Forall_app in Hm as [Hm Hmo]. apply Forall_app in Hr as [Hr Hro].
      specialize (IH Hm Hr Hs'). rewrite run_snoc. pose proof (run_ok g n os) as Hok.
      pose proof (run_db_ok g bounds n os Hm) as Hd.
      inversion Hmo as [|? ? Hmo' _]; subst. inversion Hro as [|? ? Hro' _]; subst.
      assert (Hst : forall conn id ts, o = OpStarted conn id ts -> 0 <= conn /\ running (run g n os) conn = None).
      { intros conn id ts E. apply (Hs os conn id ts []). rewrite E. reflexivity. }
      set (h := run g n os) in *. destruct o; cbn [step].
      + destruct (snd (set_charging_profile g h now conn p)) eqn:Ea.
        * pose proof Ea as Hx. apply set_accepted in Hx as [_ Hx]; [|exact bounds|exact Hmo'].
          intros i q Hq. rewrite (running_tx h) by apply set_transactions.
          apply (set_installs g h now conn p) in Hq; try assumption.
          destruct Hq as [(Ht & ->)|(H1 & _)]; [|exact (IH i q H1)].
          unfold target in Ht. destruct Hx as (A1 & _ & _ & _ & _ & _ & _ & _ & A9). destruct (pf_purpose p).
          -- discriminate.
          -- destruct Ht as (j & E & _); discriminate.
          -- injection Ht as ->. destruct A9 as (_ & c & Ec & Ha). unfold running, connector_at.
             destruct (Z.ltb_spec conn 0); [lia|]. rewrite Ec. unfold tx_agrees in Ha.
             destruct (c_tx c) as [[t ts]|]; [|destruct Ha; discriminate]. exists t, ts. split; [reflexivity|exact Ha].
        * rewrite (set_rejected _ _ _ _ _ Ea). exact IH.
      + contradiction.
      + apply (tx_bound_sub h); [|intros w q; apply clear_sub; exact Hok|exact IH].
        unfold clear_charging_profile. destruct (f_id f), (f_conn f), (f_purpose f), (f_stack f);
          try apply clear_all_tx. unfold transactions, clear_all_profiles. cbn. rewrite map_map. reflexivity.
      + destruct (Hst _ _ _ eq_refl) as [Hc Hidle]. intros i q Hq.
        assert (Hq' : holds h (AtTx i) q).
        { revert Hq. apply (same_maps_holds h). intros w'. apply set_tx_map_at. }
        destruct (IH i q Hq') as (t & ts' & Er & Ha). exists t, ts'. split; [|exact Ha].
        pose proof (running_nonneg _ _ _ Er) as Hi. rewrite <- Er. unfold running, connector_at in *.
        destruct (Z.ltb_spec i 0); [lia|]. cbn [set_conns h_conns]. rewrite nth_error_update.
        destruct (Nat.eqb_spec (Z.to_nat conn) (Z.to_nat i)) as [E|E]; [|destruct (nth_error (h_conns h) (Z.to_nat i)); reflexivity].
        exfalso. assert (conn = i) by lia. subst conn. destruct (Z.ltb_spec i 0); [lia|]. congruence.
      + intros i q Hq. apply stopped_holds in Hq as [Hq Hne]; [|exact Hok].
        destruct (IH i q Hq) as (t & ts' & Er & Ha). exists t, ts'. split; [|exact Ha].
        unfold transaction_stopped. rewrite (running_tx _ _ (clear_all_tx _ _ _)).
        pose proof (running_nonneg _ _ _ Er) as Hi.
        rewrite <- Er. unfold running, connector_at in *.
        destruct (Z.ltb_spec i 0); [lia|]. cbn [set_conns h_conns]. rewrite nth_error_update.
        destruct (Nat.eqb_spec (Z.to_nat conn) (Z.to_nat i)) as [E|E]; [|destruct (nth_error (h_conns h) (Z.to_nat i)); reflexivity].
        exfalso. assert (i = 0 \/ conn = i) as [->|<-] by lia; [|congruence].
        apply handler_ok_iff in Hok as (_ & _ & _ & K). exact (K q Hq).
      + apply (tx_bound_sub h); [apply expire_tx|intros w q Hq; apply expire_holds in Hq; tauto|exact IH].
      + unfold restart, load_charging_profiles. 
        change {| h_max := []; h_conns := _; h_db := h_db h |} with (emptied (None :: resumed) h).
        apply tx_bound_load.
        * intros [c q] Hq. destruct Hd as (_ & _ & D3 & _). destruct (D3 c q Hq) as ((_ & K) & _). exact K.
        * apply (emptied_loading g None resumed h Hd).
        * intros i q Hq. exfalso. exact (emptied_holds _ _ _ _ Hq).
  Qed.
End Histories.
