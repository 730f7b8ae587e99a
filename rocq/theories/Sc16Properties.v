(** Theorems about OCPP 1.6 smart charging (properties C14-C19 and C53-C55). *)
From Coq Require Import ZArith List Bool Lia Sorted Permutation.
From Verif Require Import Prof16Model Prof16Spec Sc16Model Sc16Spec Sc16Proofs Sc16Proofs2 Sc16Proofs3 Sc16Proofs4 Sc16Proofs5 Sc16Proofs6 Prof16Proofs3.
Import ListNotations.
Open Scope Z_scope.

(** ** A station for the examples *)

Fixpoint insert_by (key : entry -> Z) (e : entry) (l : list entry) : list entry :=
  match l with
  | [] => [e]
  | x :: r => if key e <=? key x then e :: l else x :: insert_by key e r
  end.
Definition sort_by (key : entry -> Z) (l : list entry) : list entry := fold_right (insert_by key) [] l.

Lemma insert_perm key e l : Permutation (e :: l) (insert_by key e l).
Proof.
  induction l as [|x l IH]; cbn; [reflexivity|]. destruct (key e <=? key x); [reflexivity|].
  etransitivity; [apply perm_swap|]. apply perm_skip. exact IH.
Qed.
Lemma sort_sorts key : sorts (sort_by key) (fun a b => key a <= key b).
Proof.
  intros l. induction l as [|e l [IH1 IH2]]; [split; constructor|].
  change (sort_by key (e :: l)) with (insert_by key e (sort_by key l)). split.
  - etransitivity; [apply perm_skip; exact IH1|]. apply insert_perm.
  - revert IH2. generalize (sort_by key l). intros m S. induction S as [|x m S IH Hx]; cbn.
    + constructor; constructor.
    + destruct (Z.leb_spec (key e) (key x)) as [H|H].
      * constructor; [constructor; assumption|]. constructor; [exact H|].
        eapply Forall_impl; [|exact Hx]. cbn. intros; lia.
      * constructor; [exact IH|]. apply Forall_forall. intros y Hy.
        apply (Permutation_in _ (Permutation_sym (insert_perm key e m))) in Hy as [<-|Hy]; [lia|].
        rewrite Forall_forall in Hx. apply Hx. exact Hy.
Qed.

Definition ex_date := sort_by e_start.
Definition ex_stack := sort_by (fun e => - e_stack e).
Lemma ex_sd : sorts ex_date by_start.
Proof. exact (sort_sorts e_start). Qed.
Lemma ex_ss : sorts ex_stack by_stack.
Proof.
  intros l. destruct (sort_sorts (fun e => - e_stack e) l) as [H1 H2]. split; [exact H1|].
  unfold ex_stack. clear H1. induction H2 as [|x m _ IH Hx]; [constructor|]. constructor; [exact IH|].
  eapply Forall_impl; [|exact Hx]. cbn. unfold by_stack. intros; lia.
Qed.

Definition ex_ar : arith :=
  {| f_add := Z.add; f_mul := fun a b => a * b / 2 ^ 149; f_div := fun a b => a * 2 ^ 149 / b;
     f_of_int := fun x => x * 2 ^ 149 |}.
Definition fl (x : Z) : Z := x * 2 ^ 149.
Definition ex_cfg : cfg :=
  {| g_max_stack := 10; g_max_installed := 20; g_max_periods := 5; g_units := [UA; UW];
     g_no_start := true; g_purposes := [PMax; PTxDefault; PTx] |}.
Definition ex_k : ccfg := mk_ccfg ex_ar [] None None None None.
Definition sec (x : Z) : Z := x * 1000000000.
Definition mk (id stack : Z) (pu : purpose) (ki : pkind) (u : runit) (ps : list csp) (dur start : option Z)
           (r : option recur) : profile :=
  {| pf_id := id; pf_stack := stack; pf_purpose := pu; pf_kind := ki;
     pf_sched := {| sc_unit := u; sc_periods := ps; sc_duration := dur; sc_start := start |};
     pf_tx := None; pf_recur := r; pf_from := None; pf_to := None |}.
Definition per (s x : Z) : csp := {| sp_start := s; sp_limit := fl x; sp_phases := None |}.

(* 32 A for the station, 16 A by default, 10 A then 20 A for the running transaction, and a
   daily 3 kW limit *)
Definition ex_max := mk 1 0 PMax Absolute UA [per 0 32; per 600 13] None (Some (sec 1000)) None.
Definition ex_def := mk 2 0 PTxDefault Recurring UA [per 0 16; per 300 15] (Some 86400) (Some (sec 90000)) (Some Daily).
Definition ex_tx := mk 3 1 PTx Relative UA [per 0 10; per 500 20] (Some 700) None None.
Definition ex_os : list op :=
  [OpSet (sec 900) 0 ex_max; OpSet (sec 901) 1 ex_def; OpSet (sec 902) 2 ex_tx;
   OpStarted 1 77 (sec 1100); OpSet (sec 1101) 1 ex_tx].
Definition ex_h : handler := run ex_cfg 2 ex_os.

Lemma ex_valid i ign p :
  applicable ex_h i ign p -> p = ex_max \/ (i = 1 /\ (p = ex_def \/ p = ex_tx)).
Proof.
  intros (_ & [H|(Hi & c & En & H)]).
  - vm_compute in H. destruct H as [<-|[]]. left. vm_compute. reflexivity.
  - right. assert (i = 1 \/ i = 2 \/ 3 <= i) as [->|[->|Hb]] by lia.
    + split; [reflexivity|]. vm_compute in En. injection En as <-. vm_compute in H.
      destruct H as [[H|[]]|[[H|[]] _]]; [left|right]; rewrite <- H; vm_compute; reflexivity.
    + exfalso. vm_compute in En. injection En as <-. vm_compute in H. tauto.
    + exfalso. replace (nth_error (h_conns ex_h) (Z.to_nat i)) with (@None connector) in En; [discriminate|].
      symmetry. apply nth_error_None. vm_compute (length (h_conns ex_h)). lia.
Qed.

Lemma ex_usable i ign p : applicable ex_h i ign p -> usable 1200 4800 (session_start ex_h i) p.
Proof.
  intros H. apply ex_valid in H.
  assert (G : forall q, q = ex_max \/ q = ex_def \/ q = ex_tx -> usable 1200 4800 (session_start ex_h i) q).
  { assert (A : forall a b : Z, 0 <= a < b -> forall x y, StronglySorted (fun c d => sp_start c < sp_start d)
                  [{| sp_start := a; sp_limit := x; sp_phases := None |}; {| sp_start := b; sp_limit := y; sp_phases := None |}]).
    { intros a b H0 x y. constructor; [constructor; constructor|]. constructor; [cbn; lia|constructor]. }
    intros q [->|[->| ->]]; (split; [|split; [|exact I]]).
    1, 3, 5: split; [apply A; lia|split; [reflexivity|]]; apply Forall_cons; [cbn [sp_start per]; lia|apply Forall_cons; [cbn [sp_start per]; lia|apply Forall_nil]].
    all: apply Forall_cons; [vm_compute; split; [discriminate|reflexivity]|apply Forall_cons; [vm_compute; split; [discriminate|reflexivity]|apply Forall_nil]]. }
  apply G. tauto.
Qed.

(** ** C14 *)

(** The composite schedule of one connector, at every second of the window. *)
Theorem composite_schedule_connector ar sort_date sort_stack g n os k now conns maxd conn dur r (offline : bool) u :
  sorts sort_date by_start -> sorts sort_stack by_stack ->
  let h := run g n os in
  let len := Z.min maxd dur in
  let ignored := (if offline then k_offline_ignored k else []) in
  0 < conn <= conns -> 0 < len <= 2147483647 -> answer_unit g r u ->
  (forall p, applicable h conn ignored p -> usable (secs now) (secs now + len) (session_start h conn) p) ->
  exists l,
    get_composite_schedule ar sort_date sort_stack g k h now conns maxd conn dur r offline =
      Some (secs now, len, l) /\
    forall t, secs now <= t < secs now + len ->
      exists c tx txd mx,
        look sp_start l (t - secs now) = Some c /\
        decides (applicable h conn ignored) PTx (secs now) (session_start h conn) t tx /\
        decides (applicable h conn ignored) PTxDefault (secs now) (session_start h conn) t txd /\
        decides (applicable h conn ignored) PMax (secs now) (session_start h conn) t mx /\
        let a := strictest (allowed_by (override tx txd)) (allowed_by mx) in
        sp_limit c = fst (expressed ar u (match u with UA => k_current k | UW => k_power k end)
                            (k_phases k) (k_voltage k) a) /\
        sp_phases c = a_phases a.
Proof.
  intros sd ss. exact (get_connector ar sort_date sort_stack sd ss g k (run g n os) now conns maxd conn dur r offline u (run_ok g n os)).
Qed.
Print Assumptions composite_schedule_connector.
Example composite_schedule_connector_ex :
  sorts ex_date by_start /\ sorts ex_stack by_stack /\ 0 < 1 <= 2 /\ answer_unit ex_cfg None UA /\
  (forall p, applicable ex_h 1 [] p -> usable 1200 4800 (session_start ex_h 1) p) /\
  get_composite_schedule ex_ar ex_date ex_stack ex_cfg ex_k ex_h (sec 1200) 2 3600 1 7200 None false =
    Some (1200, 3600, [per 0 10; per 400 13]) /\
  get_composite_schedule ex_ar ex_date ex_stack ex_cfg ex_k ex_h (sec 89600) 2 3600 1 7200 None false =
    Some (89600, 3600, [per 0 13]) /\
  get_composite_schedule ex_ar ex_date ex_stack ex_cfg ex_k ex_h (sec 0) 2 3600 2 2000 None false =
    Some (0, 2000, [per 0 48; per 1000 32; per 1600 13]).
Proof.
  split; [exact ex_sd|]. split; [exact ex_ss|]. split; [lia|]. split; [cbn; eauto|].
  split; [intros p; apply ex_usable|]. split; [vm_compute; reflexivity|]. split; vm_compute; reflexivity.
Qed.

(** The composite schedule of the whole station. *)
Theorem composite_schedule_station ar sort_date sort_stack g n os k now conns maxd dur r (offline : bool) u :
  sorts sort_date by_start -> sorts sort_stack by_stack ->
  let h := run g n os in
  let len := Z.min maxd dur in
  let ignored := (if offline then k_offline_ignored k else []) in
  (1 < length (h_conns h))%nat ->
  0 <= conns -> 0 < len <= 2147483647 -> answer_unit g r u ->
  (forall conn p, applicable h conn ignored p -> usable (secs now) (secs now + len) (session_start h conn) p) ->
  exists l,
    get_composite_schedule ar sort_date sort_stack g k h now conns maxd 0 dur r offline =
      Some (secs now, len, l) /\
    forall t, secs now <= t < secs now + len ->
      exists c parts mx,
        look sp_start l (t - secs now) = Some c /\
        length parts = (length (h_conns h) - 1)%nat /\
        (forall i x, nth_error parts i = Some x ->
           decides (applicable h (1 + Z.of_nat i) ignored) PTx (secs now) (session_start h (1 + Z.of_nat i)) t (fst x) /\
           decides (applicable h (1 + Z.of_nat i) ignored) PTxDefault (secs now) (session_start h (1 + Z.of_nat i)) t (snd x)) /\
        decides (applicable h 0 ignored) PMax (secs now) None t mx /\
        let a := strictest (allowed_sum ar (k_current k) (k_power k)
                              (map (fun x => allowed_by (override (fst x) (snd x))) parts))
                           (allowed_by mx) in
        sp_limit c = fst (expressed ar u (match u with UA => k_current k | UW => k_power k end)
                            (k_phases k) (k_voltage k) a) /\
        sp_phases c = a_phases a.
Proof.
  intros sd ss h len ignored Hn.
  exact (get_station ar sort_date sort_stack sd ss g k h now conns maxd dur r offline u (run_ok g n os) Hn).
Qed.
Print Assumptions composite_schedule_station.
Example composite_schedule_station_ex :
  (1 < length (h_conns ex_h))%nat /\
  (forall conn p, applicable ex_h conn [] p -> usable 1200 4800 (session_start ex_h conn) p) /\
  get_composite_schedule ex_ar ex_date ex_stack ex_cfg ex_k ex_h (sec 1200) 2 3600 0 7200 None false =
    Some (1200, 3600, [per 0 32; per 400 13]) /\
  get_composite_schedule ex_ar ex_date ex_stack ex_cfg ex_k ex_h (sec 0) 2 3600 0 2000 None false =
    Some (0, 2000, [per 0 63; per 1000 32; per 1600 13]).
Proof.
  split; [vm_compute; lia|]. split; [intros conn p; apply ex_usable|]. split; vm_compute; reflexivity.
Qed.

(** The schedule the charging loop uses: without a transaction (and unless one is simulated)
    only the station-wide profiles count. *)
Theorem enhanced_composite_schedule ar sort_date sort_stack g n os k start end_ conn u (offline simulate : bool) :
  sorts sort_date by_start -> sorts sort_stack by_stack ->
  let h := run g n os in
  let ignored := (if offline then k_offline_ignored k else []) in
  0 < secs end_ - secs start <= 2147483647 -> 0 < conn ->
  (forall p, applicable h conn ignored p -> usable (secs start) (secs end_) (session_start h conn) p) ->
  let out := snd (calculate_enhanced_composite_schedule ar sort_date sort_stack k h start end_ conn u offline simulate) in
  forall t, secs start <= t < secs end_ ->
    exists o tx txd mx,
      look op_start out (t - secs start) = Some o /\
      decides (applicable h conn ignored) PTx (secs start) (session_start h conn) t tx /\
      decides (applicable h conn ignored) PTxDefault (secs start) (session_start h conn) t txd /\
      decides (applicable h conn ignored) PMax (secs start) (session_start h conn) t mx /\
      let a := strictest (connector_allows (active (session_start h conn) simulate) tx txd) (allowed_by mx) in
      (op_limit o, op_stack o) = expressed ar u (match u with UA => k_current k | UW => k_power k end)
                                   (k_phases k) (k_voltage k) a /\
      op_phases o = a_phases a.
Proof.
  intros sd ss h ignored Hw Hc Hu.
  exact (connector_ok ar sort_date sort_stack sd ss start end_ Hw h (run_ok g n os) k u offline simulate conn Hc Hu).
Qed.
Print Assumptions enhanced_composite_schedule.
Example enhanced_composite_schedule_ex :
  map (fun o => (op_start o, op_limit o / 2 ^ 149, op_stack o))
      (snd (calculate_enhanced_composite_schedule ex_ar ex_date ex_stack ex_k ex_h (sec 1200) (sec 4800) 2 UW false false)) =
    [(0, 32 * 690, 0); (400, 13 * 690, 0)] /\
  map (fun o => (op_start o, op_limit o / 2 ^ 149, op_stack o))
      (snd (calculate_enhanced_composite_schedule ex_ar ex_date ex_stack ex_k ex_h (sec 1200) (sec 4800) 1 UA false false)) =
    [(0, 10, 1); (400, 13, 0)].
Proof. split; vm_compute; reflexivity. Qed.

Theorem composite_schedule_rejected ar sort_date sort_stack g k h now conns maxd conn dur r offline :
  g_units g <> [] ->
  (get_composite_schedule ar sort_date sort_stack g k h now conns maxd conn dur r offline = None <->
   ~ (0 <= conn <= conns) \/ exists u, r = Some u /\ ~ In u (g_units g)).
Proof. exact (get_rejects ar sort_date sort_stack g k h now conns maxd conn dur r offline). Qed.
Print Assumptions composite_schedule_rejected.
Example composite_schedule_rejected_ex :
  get_composite_schedule ex_ar ex_date ex_stack ex_cfg ex_k ex_h (sec 1200) 2 3600 3 7200 None false = None /\
  get_composite_schedule ex_ar ex_date ex_stack ex_cfg ex_k ex_h (sec 1200) 2 3600 1 60 (Some UW) false <> None.
Proof. split; [reflexivity|]. vm_compute. discriminate. Qed.

(* Without [usable]: a profile whose first period does not start at 0 is accepted and its
   first period never used, so the composite schedule has no limit where the profile has one. *)
Definition ex_late := mk 4 0 PMax Absolute UA [per 5 6; per 600 13] None (Some (sec 1000)) None.
Theorem first_period_ignored_refuted :
  exists g p h, snd (set_charging_profile g (fresh 1) 0 0 p) = true /\ h = fst (set_charging_profile g (fresh 1) 0 0 p) /\
    holds h AtStation p /\
    look sp_start (sc_periods (pf_sched p)) 100 = Some (per 5 6) /\ sc_start (pf_sched p) = Some (sec 1000) /\
    get_composite_schedule ex_ar ex_date ex_stack g ex_k h (sec 1100) 1 10 0 10 None false = Some (1100, 10, [per 0 48]).
Proof.
  exists ex_cfg, ex_late, (fst (set_charging_profile ex_cfg (fresh 1) 0 0 ex_late)).
  split; [vm_compute; reflexivity|]. split; [reflexivity|]. split; [vm_compute; auto|].
  split; [vm_compute; reflexivity|]. split; vm_compute; reflexivity.
Qed.
Print Assumptions first_period_ignored_refuted.

(* A validTo far before the start of the schedule wraps around to a huge duration. *)
Definition ex_old : profile :=
  let p := mk 5 0 PMax Absolute UA [per 0 6] None (Some (sec 5000000000)) None in
  {| pf_id := 5; pf_stack := 0; pf_purpose := PMax; pf_kind := Absolute; pf_sched := pf_sched p; pf_tx := None;
     pf_recur := None; pf_from := None; pf_to := Some (sec 1000000000) |}.
Theorem valid_to_wraps_refuted :
  exists g p h, snd (set_charging_profile g (fresh 1) 0 0 p) = true /\ h = fst (set_charging_profile g (fresh 1) 0 0 p) /\
    pf_to p = Some (sec 1000000000) /\
    get_composite_schedule ex_ar ex_date ex_stack g ex_k h (sec 5000000100) 1 10 0 10 None false =
      Some (5000000100, 10, [per 0 6]).
Proof.
  exists ex_cfg, ex_old, (fst (set_charging_profile ex_cfg (fresh 1) 0 0 ex_old)).
  split; [vm_compute; reflexivity|]. split; [reflexivity|]. split; vm_compute; reflexivity.
Qed.
Print Assumptions valid_to_wraps_refuted.

(** ** C15 *)

Theorem composite_well_formed ar sort_date sort_stack k h start end_ conn u offline simulate :
  (forall l, length (sort_stack l) = length l) ->
  secs end_ - secs start <= 2147483647 ->
  wf_output (secs end_ - secs start)
    (snd (calculate_enhanced_composite_schedule ar sort_date sort_stack k h start end_ conn u offline simulate)).
Proof. exact (composite_struct ar sort_date sort_stack k h start end_ conn u offline simulate). Qed.
Print Assumptions composite_well_formed.
Example composite_well_formed_ex :
  (forall l, length (ex_stack l) = length l) /\
  length (snd (calculate_enhanced_composite_schedule ex_ar ex_date ex_stack ex_k ex_h (sec 1200) (sec 4800) 1 UA false true)) = 2%nat.
Proof. split; [|vm_compute; reflexivity]. intros l. symmetry. apply Permutation_length. apply ex_ss. Qed.

Theorem composite_response_well_formed ar sort_date sort_stack g k h now conns maxd conn dur r offline s d l :
  sorts sort_stack by_stack -> Z.min maxd dur <= 2147483647 ->
  get_composite_schedule ar sort_date sort_stack g k h now conns maxd conn dur r offline = Some (s, d, l) ->
  s = secs now /\ (0 <= Z.min maxd dur -> d = Z.min maxd dur) /\
  ascending sp_start l /\ (exists c r, l = c :: r /\ sp_start c = 0) /\
  (0 < Z.min maxd dur -> Forall (fun c => 0 <= sp_start c < Z.min maxd dur) l).
Proof. intros ss. exact (get_wf ar sort_date sort_stack ss g k h now conns maxd conn dur r offline s d l). Qed.
Print Assumptions composite_response_well_formed.
Example composite_response_well_formed_ex :
  get_composite_schedule ex_ar ex_date ex_stack ex_cfg ex_k ex_h (sec 0) 2 3600 0 2000 None false =
    Some (0, 2000, [per 0 63; per 1000 32; per 1600 13]).
Proof. vm_compute; reflexivity. Qed.

(** ** C16 *)

Theorem recurring_anchored in_now in_end session p r s :
  pf_kind p = Recurring -> pf_recur p = Some r -> sc_start (pf_sched p) = Some s ->
  secs in_now <= secs in_end ->
  exists f rest, calculate_start in_now in_end session p = f :: rest /\
    forall y, (y - secs s) mod day_or_week r = 0 /\ y <= secs in_now < y + day_or_week r <-> y = f.
Proof. exact (recurring_first in_now in_end session p r s). Qed.
Print Assumptions recurring_anchored.
Example recurring_anchored_ex :
  pf_kind ex_def = Recurring /\ pf_recur ex_def = Some Daily /\ sc_start (pf_sched ex_def) = Some (sec 90000) /\
  calculate_start (sec 1200) (sec 200000) None ex_def = [3600 - 86400; 3600; 90000; 176400].
Proof. repeat split. Qed.

Theorem recurring_occurrences in_now in_end session p r s x :
  pf_kind p = Recurring -> pf_recur p = Some r -> sc_start (pf_sched p) = Some s ->
  secs in_now <= secs in_end ->
  (In x (calculate_start in_now in_end session p) <->
   (x - secs s) mod day_or_week r = 0 /\ secs in_now < x + day_or_week r /\ x <= secs in_end).
Proof. exact (recurring_starts in_now in_end session p r s x). Qed.
Print Assumptions recurring_occurrences.
Example recurring_occurrences_ex : In 90000 (calculate_start (sec 1200) (sec 200000) None ex_def).
Proof. vm_compute. tauto. Qed.

(** ** C17 *)

Theorem profile_accepted g h now p conn ig p' :
  0 <= g_max_periods g <= 2147483647 -> int32 conn ->
  (validate_profile g h now p conn ig = Some p' <-> acceptable g h conn ig p /\ p' = completed now p).
Proof. exact (validate_iff g h now p conn ig p'). Qed.
Print Assumptions profile_accepted.
Example profile_accepted_ex :
  0 <= g_max_periods ex_cfg <= 2147483647 /\ int32 1 /\
  validate_profile ex_cfg ex_h 5 ex_def 1 false = Some ex_def /\
  validate_profile ex_cfg ex_h 5 ex_tx 2 false = None /\
  validate_profile ex_cfg ex_h (sec 5) (mk 9 1 PTxDefault Recurring UA [per 0 3] (Some 700000) None (Some Weekly)) 0 false =
    Some (mk 9 1 PTxDefault Recurring UA [per 0 3] (Some 604800) (Some (sec 5)) (Some Weekly)).
Proof. unfold int32. cbn [g_max_periods ex_cfg]. repeat split; try lia; vm_compute; reflexivity. Qed.

Theorem set_profile_accepted g h now conn p :
  0 <= g_max_periods g <= 2147483647 -> int32 conn ->
  (snd (set_charging_profile g h now conn p) = true <->
   In (pf_purpose p) (g_purposes g) /\ acceptable g h conn false p).
Proof. exact (set_accepted g h now conn p). Qed.
Print Assumptions set_profile_accepted.
Example set_profile_accepted_ex :
  snd (set_charging_profile ex_cfg ex_h 5 2 ex_def) = true /\ snd (set_charging_profile ex_cfg ex_h 5 3 ex_def) = false.
Proof. split; vm_compute; reflexivity. Qed.

Theorem remote_start_profile_accepted g h now conn p :
  0 <= g_max_periods g <= 2147483647 -> (forall c, conn = Some c -> int32 c) ->
  (remote_start_profile g h now conn p <> None <->
   exists c, conn = Some c /\ pf_purpose p = PTx /\ acceptable g h c true p).
Proof. exact (remote_accepted g h now conn p). Qed.
Print Assumptions remote_start_profile_accepted.
Example remote_start_profile_accepted_ex :
  remote_start_profile ex_cfg ex_h 5 (Some 2) ex_tx <> None /\ remote_start_profile ex_cfg ex_h 5 (Some 2) ex_def = None /\
  snd (set_charging_profile ex_cfg ex_h 5 2 ex_tx) = false.
Proof. split; [vm_compute; discriminate|]. split; vm_compute; reflexivity. Qed.

(** ** C18 *)

Theorem clear_profiles_exactly g n os f h' ok :
  some_criterion f -> clear_charging_profile (run g n os) f = (h', ok) ->
  (forall w p, holds h' w p <-> holds (run g n os) w p /\ ~ asked f w p) /\
  (ok = true <-> exists w p, holds (run g n os) w p /\ asked f w p) /\
  transactions h' = transactions (run g n os) /\
  (forall r, In r (h_db h') <-> In r (h_db (run g n os)) /\
     forall w p, holds (run g n os) w p -> asked f w p -> pf_id (snd r) <> pf_id p).
Proof. exact (clear_spec (run g n os) f h' ok (run_ok g n os)). Qed.
Print Assumptions clear_profiles_exactly.
Example clear_profiles_exactly_ex :
  let f := {| f_id := None; f_conn := Some 1; f_stack := None; f_purpose := Some PTx |} in
  some_criterion f /\ holds ex_h (AtTx 1) ex_tx /\ asked f (AtTx 1) ex_tx /\ ~ asked f (AtDefault 1) ex_def /\
  snd (clear_charging_profile ex_h f) = true /\
  snd (clear_charging_profile ex_h {| f_id := None; f_conn := Some 2; f_stack := None; f_purpose := Some PTx |}) = false.
Proof.
  cbn zeta. split; [unfold some_criterion; cbn; intuition congruence|].
  split; [vm_compute; eexists; split; [reflexivity|cbn; auto]|].
  split; [unfold asked; cbn; repeat split; congruence|].
  split; [unfold asked; cbn; intros (_ & _ & H); specialize (H _ eq_refl); discriminate|].
  split; vm_compute; reflexivity.
Qed.

Theorem clear_without_criteria h h' ok :
  clear_charging_profile h {| f_id := None; f_conn := None; f_stack := None; f_purpose := None |} = (h', ok) ->
  ok = true /\ (forall w p, ~ holds h' w p) /\ transactions h' = transactions h /\ h_db h' = [].
Proof. exact (clear_everything h h' ok). Qed.
Print Assumptions clear_without_criteria.
Example clear_without_criteria_ex :
  fst (clear_charging_profile ex_h {| f_id := None; f_conn := None; f_stack := None; f_purpose := None |}) <> ex_h.
Proof. vm_compute. discriminate. Qed.

(* success is reported although nothing is installed *)
Theorem clear_nothing_succeeds_refuted :
  exists h, (forall w p, ~ holds h w p) /\
    snd (clear_charging_profile h {| f_id := None; f_conn := None; f_stack := None; f_purpose := None |}) = true.
Proof. exists (fresh 2). split; [exact (fresh_holds 2)|reflexivity]. Qed.
Print Assumptions clear_nothing_succeeds_refuted.

(* connectorId 0 does not select a TxDefaultProfile that was set for connector 0 *)
Theorem clear_connector_zero_refuted :
  exists g p h, snd (set_charging_profile g (fresh 2) 0 0 p) = true /\ h = fst (set_charging_profile g (fresh 2) 0 0 p) /\
    let f := {| f_id := None; f_conn := Some 0; f_stack := None; f_purpose := None |} in
    snd (clear_charging_profile h f) = false /\ holds (fst (clear_charging_profile h f)) (AtDefault 1) p.
Proof.
  exists ex_cfg, ex_def, (fst (set_charging_profile ex_cfg (fresh 2) 0 0 ex_def)).
  split; [vm_compute; reflexivity|]. split; [reflexivity|]. cbn zeta. split; [vm_compute; reflexivity|].
  vm_compute. eexists; split; [reflexivity|]. cbn. auto.
Qed.
Print Assumptions clear_connector_zero_refuted.

(** ** C19 *)

Theorem set_profile_installs g n os now conn p w q :
  let h := run g n os in
  0 <= g_max_periods g <= 2147483647 -> int32 conn ->
  snd (set_charging_profile g h now conn p) = true ->
  (holds (fst (set_charging_profile g h now conn p)) w q <->
   (target h conn p w /\ q = completed now p) \/
   (holds h w q /\ pf_id q <> pf_id p /\ ~ (target h conn p w /\ pf_stack q = pf_stack p))).
Proof. intros h Hb Hi. exact (set_installs g h now conn p w q Hb Hi (run_ok g n os)). Qed.
Print Assumptions set_profile_installs.
Definition ex_tx2 := mk 8 1 PTx Relative UA [per 0 7] None None None.
Example set_profile_installs_ex :
  snd (set_charging_profile ex_cfg ex_h 5 1 ex_tx2) = true /\
  target ex_h 1 ex_tx2 (AtTx 1) /\ holds ex_h (AtTx 1) ex_tx /\ pf_stack ex_tx = pf_stack ex_tx2 /\
  holds (fst (set_charging_profile ex_cfg ex_h 5 1 ex_tx2)) (AtTx 1) ex_tx2 /\
  holds (fst (set_charging_profile ex_cfg ex_h 5 1 ex_tx2)) (AtDefault 1) ex_def.
Proof.
  split; [vm_compute; reflexivity|]. split; [reflexivity|].
  split; [vm_compute; eexists; split; [reflexivity|cbn; auto]|]. split; [reflexivity|].
  split; vm_compute; eexists; (split; [reflexivity|cbn; auto]).
Qed.

Theorem set_profile_rejected g h now conn p :
  snd (set_charging_profile g h now conn p) = false -> fst (set_charging_profile g h now conn p) = h.
Proof. exact (set_rejected g h now conn p). Qed.
Print Assumptions set_profile_rejected.
Example set_profile_rejected_ex : snd (set_charging_profile ex_cfg ex_h 5 2 ex_tx) = false.
Proof. vm_compute; reflexivity. Qed.

Theorem set_profile_stored g n os now conn p r :
  let h := run g n os in
  0 <= g_max_periods g <= 2147483647 -> int32 conn ->
  snd (set_charging_profile g h now conn p) = true ->
  In (conn, completed now p) (h_db (fst (set_charging_profile g h now conn p))) /\
  (In r (h_db (fst (set_charging_profile g h now conn p))) ->
   r = (conn, completed now p) \/ In r (h_db h) /\ pf_id (snd r) <> pf_id p).
Proof. intros h Hb Hi. exact (set_stored g h now conn p r Hb Hi (run_ok g n os)). Qed.
Print Assumptions set_profile_stored.
Example set_profile_stored_ex :
  snd (set_charging_profile ex_cfg ex_h 5 1 ex_tx2) = true /\ length (h_db ex_h) = 3%nat.
Proof. split; vm_compute; reflexivity. Qed.

Theorem set_profile_keeps_transactions g h now conn p :
  transactions (fst (set_charging_profile g h now conn p)) = transactions h.
Proof. exact (set_transactions g h now conn p). Qed.
Print Assumptions set_profile_keeps_transactions.
Example set_profile_keeps_transactions_ex : transactions ex_h = [None; Some (77, sec 1100); None].
Proof. vm_compute; reflexivity. Qed.

Theorem profile_ids_unique g n os :
  0 <= g_max_periods g <= 2147483647 -> machine_ids os -> no_remote_start os -> unique_ids (run g n os).
Proof. intros Hb. exact (run_unique g Hb n os). Qed.
Print Assumptions profile_ids_unique.
Example profile_ids_unique_ex : machine_ids ex_os /\ no_remote_start ex_os /\ length (all_installed ex_h) = 3%nat.
Proof.
  split; [|split; [|vm_compute; reflexivity]]; repeat (apply Forall_cons; [cbn; unfold int32; lia|]); apply Forall_nil.
Qed.

(* A profile that comes with a RemoteStartTransaction does not replace one with the same id *)
Theorem remote_start_duplicate_id_refuted :
  exists g os, machine_ids os /\ ~ unique_ids (run g 2 os).
Proof.
  exists ex_cfg, [OpSet 0 0 ex_max; OpRemoteStart 1 (Some 1) (mk 1 0 PTx Relative UA [per 0 9] None None None)].
  split; [repeat (apply Forall_cons; [cbn; unfold int32; lia|]); apply Forall_nil|].
  intros H. specialize (H AtStation (AtTx 1) ex_max (mk 1 0 PTx Relative UA [per 0 9] None None None)).
  assert (X : ex_max = mk 1 0 PTx Relative UA [per 0 9] None None None).
  { apply H.
    - vm_compute. auto.
    - vm_compute. eexists. split; [reflexivity|]. cbn. auto.
    - reflexivity. }
  discriminate X.
Qed.
Print Assumptions remote_start_duplicate_id_refuted.

Theorem remote_start_installs g n os now c p h' w q :
  let h := run g n os in
  0 <= g_max_periods g <= 2147483647 -> int32 c ->
  remote_start_profile g h now (Some c) p = Some h' ->
  (holds h' w q <-> (w = AtTx c /\ q = completed now p) \/
                    (holds h w q /\ ~ (w = AtTx c /\ pf_stack q = pf_stack p))) /\
  transactions h' = transactions h.
Proof. intros h Hb Hi. exact (remote_installs g h now c p h' w q Hb Hi (run_ok g n os)). Qed.
Print Assumptions remote_start_installs.
Example remote_start_installs_ex :
  exists h', remote_start_profile ex_cfg ex_h 5 (Some 2) ex_tx2 = Some h' /\ holds h' (AtTx 2) ex_tx2.
Proof. eexists. split; [vm_compute; reflexivity|]. eexists. split; [reflexivity|]. cbn. auto. Qed.

(* At MaxChargingProfilesInstalled even a replacement is rejected. *)
Theorem replacement_at_limit_refuted :
  exists g h p, snd (set_charging_profile g (fresh 1) 0 0 p) = true /\ h = fst (set_charging_profile g (fresh 1) 0 0 p) /\
    holds h AtStation p /\ snd (set_charging_profile g h 0 0 p) = false.
Proof.
  exists {| g_max_stack := 10; g_max_installed := 1; g_max_periods := 5; g_units := [UA; UW];
            g_no_start := true; g_purposes := [PMax; PTxDefault; PTx] |}.
  eexists. exists ex_max. split; [vm_compute; reflexivity|]. split; [reflexivity|].
  split; [vm_compute; auto|vm_compute; reflexivity].
Qed.
Print Assumptions replacement_at_limit_refuted.

(** ** C53: stored profiles and restarts *)

Theorem stored_profiles_in_force g n os :
  0 <= g_max_periods g <= 2147483647 -> machine_ids os -> stored_in_force (run g n os).
Proof. intros Hb Hm. exact (proj2 (proj2 (proj2 (run_db_ok g Hb n os Hm)))). Qed.
Print Assumptions stored_profiles_in_force.
Example stored_profiles_in_force_ex :
  machine_ids ex_os /\ In (1, ex_def) (h_db ex_h) /\ target ex_h 1 ex_def (AtDefault 1).
Proof.
  split; [repeat (apply Forall_cons; [cbn; unfold int32; lia|]); apply Forall_nil|].
  split; [vm_compute; auto|]. exists 1. split; [reflexivity|]. right. lia.
Qed.

Theorem memory_equals_database_after_restart g n os now resumed :
  0 <= g_max_periods g <= 2147483647 -> machine_ids os ->
  in_sync (step g (run g n os) (OpRestart now resumed)).
Proof. intros Hb Hm. exact (proj2 (restart_db_ok g Hb (run g n os) now None resumed (run_db_ok g Hb n os Hm))). Qed.
Print Assumptions memory_equals_database_after_restart.
Example memory_equals_database_after_restart_ex :
  h_db (step ex_cfg ex_h (OpRestart (sec 9000) [None; None])) = [(0, ex_max); (1, ex_def)] /\
  h_db (step ex_cfg ex_h (OpRestart (sec 9000) [Some (77, sec 1100); None])) = [(0, ex_max); (1, ex_def); (1, ex_tx)].
Proof. split; vm_compute; reflexivity. Qed.

Theorem stored_profiles_survive_restart g n os now resumed conn q w :
  let h := run g n os in
  0 <= g_max_periods g <= 2147483647 ->
  machine_ids os -> same_station n os -> length resumed = n ->
  Z.of_nat (length (h_db h)) * Z.of_nat (S n) < g_max_installed g ->
  In (conn, q) (h_db h) -> pf_purpose q <> PTx -> target h conn q w ->
  holds (step g h (OpRestart now resumed)) w q.
Proof. intros h Hb. exact (restart_keeps g Hb n os now resumed conn q w). Qed.
Print Assumptions stored_profiles_survive_restart.
Example stored_profiles_survive_restart_ex :
  same_station 2 ex_os /\ Z.of_nat (length (h_db ex_h)) * Z.of_nat 3 < g_max_installed ex_cfg /\
  In (1, ex_def) (h_db ex_h).
Proof.
  split; [repeat (apply Forall_cons; [exact I|]); apply Forall_nil|]. split; [vm_compute; reflexivity|vm_compute; auto].
Qed.

(* Two connectors with a TxDefaultProfile on the same level: only the later one is stored,
   the other one is lost with the next restart. *)
Definition ex_def2 := mk 6 0 PTxDefault Absolute UA [per 0 8] None (Some 0) None.
Theorem default_profile_lost_refuted :
  exists g os p h, h = run g 2 os /\ holds h (AtDefault 1) p /\
    ~ holds (step g h (OpRestart 0 [None; None])) (AtDefault 1) p.
Proof.
  exists ex_cfg, [OpSet 0 1 ex_def; OpSet 0 2 ex_def2], ex_def. eexists. split; [reflexivity|].
  split; [vm_compute; eexists; split; [reflexivity|cbn; auto]|].
  intros (c & Ec & H). vm_compute in Ec. injection Ec as <-. exact H.
Qed.
Print Assumptions default_profile_lost_refuted.

(* A TxDefaultProfile set for connector 0, then replaced on connector 1: still in force on
   connector 2, but gone after a restart. *)
Theorem station_default_profile_lost_refuted :
  exists g os p h, h = run g 2 os /\ holds h (AtDefault 2) p /\
    ~ holds (step g h (OpRestart 0 [None; None])) (AtDefault 2) p.
Proof.
  exists ex_cfg, [OpSet 0 0 ex_def; OpClear {| f_id := None; f_conn := Some 1; f_stack := None; f_purpose := None |}], ex_def.
  eexists. split; [reflexivity|].
  split; [vm_compute; eexists; split; [reflexivity|cbn; auto]|].
  intros (c & Ec & H). vm_compute in Ec. injection Ec as <-. exact H.
Qed.
Print Assumptions station_default_profile_lost_refuted.

(** ** C54: expiry *)

Theorem expired_profiles_removed now h w q :
  holds (clear_expired_profiles now h) w q <-> holds h w q /\ ~ is_over now q.
Proof. exact (expire_holds now h w q). Qed.
Print Assumptions expired_profiles_removed.
Theorem expired_profiles_deleted now h r :
  In r (h_db (clear_expired_profiles now h)) <->
  In r (h_db h) /\ forall w p, holds h w p -> is_over now p -> pf_id (snd r) <> pf_id p.
Proof. exact (expire_db now h r). Qed.
Print Assumptions expired_profiles_deleted.
Theorem expiry_keeps_transactions now h : transactions (clear_expired_profiles now h) = transactions h.
Proof. exact (expire_tx now h). Qed.
Print Assumptions expiry_keeps_transactions.
Definition ex_short := mk 7 3 PMax Absolute UA [per 0 8] (Some 60) (Some (sec 100)) None.
Example expired_profiles_removed_ex :
  is_over (sec 161) ex_short /\ ~ is_over (sec 160) ex_short /\
  h_max (clear_expired_profiles (sec 161) (run ex_cfg 1 [OpSet 0 0 ex_short; OpSet 0 0 ex_max])) = [(0, ex_max)].
Proof.
  split; [|split; [|vm_compute; reflexivity]].
  - right. split; [reflexivity|]. exists (sec 100), 60. repeat split.
  - intros [(t & E & _)|(_ & s & d & E1 & E2 & H)]; [discriminate|].
    injection E1 as <-. injection E2 as <-. unfold sec in H. lia.
Qed.

(** ** C55: TxProfiles and transactions *)

Theorem tx_profiles_end_with_transaction g n os conn w q :
  holds (transaction_stopped (run g n os) conn) w q <-> holds (run g n os) w q /\ w <> AtTx conn.
Proof. exact (stopped_holds (run g n os) conn w q (run_ok g n os)). Qed.
Print Assumptions tx_profiles_end_with_transaction.
Example tx_profiles_end_with_transaction_ex :
  holds ex_h (AtTx 1) ex_tx /\ running ex_h 1 = Some (77, sec 1100) /\
  running (transaction_stopped ex_h 1) 1 = None /\ h_db (transaction_stopped ex_h 1) = [(0, ex_max); (1, ex_def)].
Proof.
  split; [vm_compute; eexists; split; [reflexivity|cbn; auto]|]. split; [vm_compute; reflexivity|].
  split; vm_compute; reflexivity.
Qed.

Theorem tx_profiles_belong_to_running_transaction g n os i q :
  0 <= g_max_periods g <= 2147483647 -> machine_ids os -> no_remote_start os -> idle_starts g n os ->
  holds (run g n os) (AtTx i) q ->
  exists t ts, running (run g n os) i = Some (t, ts) /\ (pf_tx q = None \/ pf_tx q = Some t).
Proof. intros Hb Hm Hr Hs. exact (run_tx_bound g Hb n os Hm Hr Hs i q). Qed.
Print Assumptions tx_profiles_belong_to_running_transaction.
Example tx_profiles_belong_to_running_transaction_ex : idle_starts ex_cfg 2 ex_os /\ holds ex_h (AtTx 1) ex_tx.
Proof.
  split; [|vm_compute; eexists; split; [reflexivity|cbn; auto]].
  intros pre conn id ts post E. unfold ex_os in E.
  do 3 (destruct pre as [|? pre]; [discriminate|]; injection E as <- E).
  destruct pre as [|? pre].
  - injection E as <- <- <- <-. split; [lia|]. vm_compute. reflexivity.
  - injection E as <- E. destruct pre as [|? pre]; [discriminate|]. injection E as <- E. destruct pre; discriminate.
Qed.
