(** OCPP 2.x charging profiles: setting, clearing and reporting them, remote starts
    (C43, C48, C49, C63, C64, C65). *)

From Coq Require Import ZArith String List Bool Lia Permutation.
From Verif Require Import StrSpec P2Model P2Spec Sc2Model Sc2Spec Sc2Proofs Sc2Proofs2 Sc2Proofs3 Sc2Proofs4.
Import ListNotations.
Open Scope string_scope.
Open Scope Z_scope.

(** A station with one three-phase and one DC EVSE; transaction 5 is running on the first. *)
Definition demo_evse : evse :=
  {| ev_supply := Some 3; ev_dcctl := false; ev_tx := Some (5, 0); ev_usable := [true] |}.
Definition demo_dc : evse :=
  {| ev_supply := Some 0; ev_dcctl := false; ev_tx := None; ev_usable := [false; true] |}.
Definition demo_station (v : version) (supply : Z) (rate : option Z) : station :=
  {| s_version := v; s_supply := supply; s_units := [UA]; s_extra := []; s_dynamic := false;
     s_local := false; s_delay := false; s_soc := false; s_sleep := false; s_switch := false;
     s_maxext := None; s_rate := rate; s_available := true; s_enabled := true; s_ignored := [];
     s_amps := None; s_watts := None; s_phases := None; s_volts := None;
     s_evses := [demo_evse; demo_dc] |}.
Definition no_tri : otri := {| t1 := None; t2 := None; t3 := None |}.
Definition demo_period (start limit : Z) : csp :=
  {| sp_start := start; sp_limit := {| t1 := Some (limit * ONE_F); t2 := None; t3 := None |};
     sp_phases := None; sp_touse := None; sp_dis := no_tri; sp_set := no_tri; sp_react := no_tri;
     sp_sleep := None; sp_baseline := false; sp_mode := None; sp_curve := None |}.
Definition demo_profile (id stack : Z) (pu : purpose) (tx : option Z) : profile :=
  {| pf_id := id; pf_stack := stack; pf_purpose := pu; pf_kind := Absolute;
     pf_scheds := [{| sc_unit := UA; sc_periods := [demo_period 0 16; demo_period 60 10]; sc_soc := false;
                      sc_start := Some 0; sc_duration := None; sc_local := None; sc_delay := None |}];
     pf_recur := None; pf_from := None; pf_to := None; pf_tx := tx; pf_dynint := false;
     pf_dyntime := false |}.
Definition demo := demo_station V201 3 None.

(** Deciding fit_for on concrete values. *)
Definition fit_b st d src e p : bool :=
  match fst (conform_and_validate_profile st d p e src) with Valid => true | _ => false end.
Lemma fit_b_iff st d src e p : fit_b st d src e p = true <-> fit_for st d src e p.
Proof.
  unfold fit_b. rewrite <- fst_validate. destruct (fst _); split; intros H; try reflexivity; discriminate.
Qed.

(** ** C48: SetChargingProfile *)

(** A request is accepted exactly when the profile meets every requirement. *)
Theorem set_profile_accepted_iff : forall st s now stored p e s' rep,
  handle_set_charging_profile_req st s now stored p e = (s', rep) ->
  ((exists cb, rep = Answer Accepted cb) <->
   s_available st = true /\ pf_purpose p <> PExternal /\ fit_for st (db s) SetProfile e p /\
   ~ too_soon st now (last_update s (pf_purpose p)) /\ stored = true).
Proof.
  intros st s now stored p e s' rep H. destruct (set_cases _ _ _ _ _ _ _ _ H) as [C _].
  destruct rep as [c|[|c] cb].
  - split; [intros (cb & E); discriminate|]. intros (A & _). destruct C as (B & _). congruence.
  - split; [intros _|intros _; exists cb; reflexivity]. tauto.
  - split; [intros (cb' & E); discriminate|]. intros (A & B & F & T & S).
    destruct C as (_ & _ & _ & [(X & _)|[(_ & _ & r & V & _)|[(_ & _ & X & _)|(_ & _ & _ & X & _)]]]).
    + contradiction.
    + exfalso. exact (F r V).
    + contradiction.
    + congruence.
Qed.
Print Assumptions set_profile_accepted_iff.

Example set_profile_accepted_ex :
  fit_for demo [] SetProfile 0 (demo_profile 1 0 PTxDefault None) /\
  fit_for demo [] SetProfile 1 (demo_profile 1 0 PTx (Some 5)) /\
  snd (handle_set_charging_profile_req demo sc_start_state 0 true (demo_profile 1 0 PTx (Some 5)) 1)
    = Answer Accepted true.
Proof. split; [apply fit_b_iff; vm_compute; reflexivity|]. split; [apply fit_b_iff; vm_compute; reflexivity|vm_compute; reflexivity]. Qed.

(** An accepted profile replaces the stored one with its id, with its validity period and its
    numbers of phases spelled out; nothing else stored changes.  The application is told. *)
Theorem set_profile_accepted_effect : forall st s now stored p e s' cb,
  handle_set_charging_profile_req st s now stored p e = (s', Answer Accepted cb) ->
  cb = true /\ exists q, spelled_out st e p q /\
  replaced (db s) (db s') {| r_evse := e; r_source := "CSO"; r_p := q |}.
Proof.
  intros st s now stored p e s' cb H. destruct (set_cases _ _ _ _ _ _ _ _ H) as [(_ & _ & _ & _ & _ & B & q & Q & D) _].
  split; [exact B|]. exists q. split; [exact Q|]. rewrite D. apply insert_replaced.
Qed.
Print Assumptions set_profile_accepted_effect.

(** A refused one changes nothing that is stored, is not announced, and the reason that is given
    applies. *)
Theorem set_profile_refused : forall st s now stored p e s' code cb,
  handle_set_charging_profile_req st s now stored p e = (s', Answer (Rejected code) cb) ->
  cb = false /\ db s' = db s /\
  ((exists r, violates st (db s) SetProfile e p r /\ names code r) \/
   (pf_purpose p = PExternal /\ code = "InvalidValue") \/
   (fit_for st (db s) SetProfile e p /\
    ((too_soon st now (last_update s (pf_purpose p)) /\ code = "RateLimitExceeded") \/
     (stored = false /\ code = "InternalError")))).
Proof.
  intros st s now stored p e s' code cb H. destruct (set_cases _ _ _ _ _ _ _ _ H) as [(_ & B & D & C) _].
  split; [exact B|]. split; [exact D|].
  destruct C as [(X & Y & _)|[(_ & _ & r & V)|[(_ & F & T & X)|(_ & F & _ & X & Y)]]].
  - right. left. auto.
  - left. exists r. exact V.
  - right. right. split; [exact F|]. left. auto.
  - right. right. split; [exact F|]. right. auto.
Qed.
Print Assumptions set_profile_refused.

Example set_profile_refused_ex :
  snd (handle_set_charging_profile_req demo sc_start_state 0 true (demo_profile 1 0 PTx (Some 6)) 1)
    = Answer (Rejected "TxNotFound") false /\
  snd (handle_set_charging_profile_req demo sc_start_state 0 true (demo_profile 1 0 PMax None) 1)
    = Answer (Rejected "InvalidValue") false /\
  snd (handle_set_charging_profile_req demo sc_start_state 0 false (demo_profile 1 0 PMax None) 0)
    = Answer (Rejected "InternalError") false.
Proof. vm_compute. repeat split. Qed.

Theorem set_profile_not_available : forall st s now stored p e s' code,
  handle_set_charging_profile_req st s now stored p e = (s', CallError code) <->
  s_available st = false /\ code = "NotSupported" /\ s' = s.
Proof.
  intros st s now stored p e s' code. split.
  - intros H. destruct (set_cases _ _ _ _ _ _ _ _ H) as [C _]. exact C.
  - intros (A & -> & ->). unfold handle_set_charging_profile_req. rewrite A. reflexivity.
Qed.
Print Assumptions set_profile_not_available.

(** Two accepted profiles of one purpose are at least the configured number of seconds apart,
    whatever happens in between, as long as the process is not started again. *)
Theorem profile_rate_limit : forall n s l1 st1 t1 w1 p1 e1 l2 st2 t2 w2 p2 e2 l3 s' outs i1 i2 cb1 cb2,
  let l := (l1 ++ (st1, t1, OSet w1 p1 e1) :: l2 ++ (st2, t2, OSet w2 p2 e2) :: l3)%list in
  in_time t1 ((st1, t1, OSet w1 p1 e1) :: l2 ++ (st2, t2, OSet w2 p2 e2) :: l3)%list ->
  Forall (fun x => no_boot (snd x)) l2 ->
  s_version st1 = V21 -> s_rate st1 = Some n -> s_version st2 = V21 -> s_rate st2 = Some n ->
  pf_purpose p1 = pf_purpose p2 ->
  sc_run s l = (s', outs) -> i1 = List.length l1 -> i2 = (i1 + S (List.length l2))%nat ->
  nth_error outs i1 = Some (TSet (Answer Accepted cb1)) ->
  nth_error outs i2 = Some (TSet (Answer Accepted cb2)) ->
  n * 10 ^ 9 <= t2 - t1.
Proof.
  intros n s l1 st1 t1 w1 p1 e1 l2 st2 t2 w2 p2 e2 l3 s' outs i1 i2 cb1 cb2 l T NB V1 R1 V2 R2 P Run -> -> N1 N2.
  unfold l in Run. clear l.
  assert (Len : forall l s s' o, sc_run s l = (s', o) -> List.length o = List.length l).
  { clear. induction l as [|[[st now] o] l IH]; intros s s' outs H; cbn [sc_run] in H; [injection H as _ <-; reflexivity|].
    destruct (sc_step st now s o) as [s1 out]. destruct (sc_run s1 l) as [s2 outs'] eqn:E. injection H as _ <-.
    cbn. f_equal. eapply IH; exact E. }
  destruct (run_app _ _ _ _ _ Run) as (sa & oa & ob & Ra & Rb & ->). pose proof (Len _ _ _ _ Ra) as La.
  cbn [sc_run] in Rb. destruct (sc_step st1 t1 sa (OSet w1 p1 e1)) as [sb out1] eqn:S1.
  destruct (sc_run sb (l2 ++ (st2, t2, OSet w2 p2 e2) :: l3)%list) as [sz oz] eqn:Rc. injection Rb as _ <-.
  destruct (run_app _ _ _ _ _ Rc) as (sc & oc & od & Rc1 & Rc2 & ->). pose proof (Len _ _ _ _ Rc1) as Lc.
  cbn [sc_run] in Rc2. destruct (sc_step st2 t2 sc (OSet w2 p2 e2)) as [sd out2] eqn:S2.
  destruct (sc_run sd l3) as [se oe] eqn:Rd. injection Rc2 as _ <-.
  assert (O1 : out1 = TSet (Answer Accepted cb1)).
  { rewrite nth_error_app2 in N1 by lia. rewrite La, Nat.sub_diag in N1. cbn in N1. congruence. }
  assert (O2 : out2 = TSet (Answer Accepted cb2)).
  { rewrite nth_error_app2 in N2 by lia. rewrite La in N2.
    replace (List.length l1 + S (List.length l2) - List.length l1)%nat with (S (List.length l2)) in N2 by lia.
    cbn [nth_error] in N2. rewrite nth_error_app2 in N2 by lia. rewrite Lc, Nat.sub_diag in N2. cbn in N2. congruence. }
  subst out1 out2. cbn [sc_step] in S1, S2.
  destruct (handle_set_charging_profile_req st1 sa t1 w1 p1 e1) as [sb' r1] eqn:H1. injection S1 as -> ->.
  destruct (handle_set_charging_profile_req st2 sc t2 w2 p2 e2) as [sd' r2] eqn:H2. injection S2 as -> ->.
  destruct (set_cases _ _ _ _ _ _ _ _ H1) as (_ & _ & L1).
  assert (C1 : counts st1 = true) by (unfold counts; rewrite V1, R1; reflexivity).
  specialize (L1 cb1 eq_refl C1).
  cbn [in_time] in T. destruct T as [_ T]. destruct (in_time_app _ _ _ T) as (T2 & _).
  destruct (run_touched l2 sb sc oc (pf_purpose p1) t1 t1 Rc1 NB T2 ltac:(lia)) as (now1 & Ln & To & Tr).
  { exists t1. split; [exact L1|lia]. }
  specialize (Tr _ T). cbn [in_time] in Tr. destruct Tr as [Tr _].
  destruct (set_cases _ _ _ _ _ _ _ _ H2) as ((_ & _ & _ & NS & _) & _).
  destruct To as (t0 & E0 & A0).
  destruct (Z_le_gt_dec (n * 10 ^ 9) (t2 - t1)) as [G|G]; [exact G|]. exfalso. apply NS.
  split; [exact V2|]. exists n, t0. split; [exact R2|]. split; [congruence|].
  destruct (Z.leb_spec t0 t2); [|lia]. change (10 ^ 9) with 1000000000 in *.
  apply Z.div_lt_upper_bound; lia.
Qed.
Print Assumptions profile_rate_limit.

(** A restart forgets when profiles were last set: the first request of a purpose after it is not refused for the rate. *)
Theorem restart_forgets_rate : forall st now s rows s1 out st2 now2 stored p e s2 rep,
  sc_step st now s (OBoot rows) = (s1, out) -> handle_set_charging_profile_req st2 s1 now2 stored p e = (s2, rep) ->
  ((exists cb, rep = Answer Accepted cb) <->
   s_available st2 = true /\ pf_purpose p <> PExternal /\ fit_for st2 (db s1) SetProfile e p /\ stored = true).
Proof.
  intros st now s rows s1 out st2 now2 stored p e s2 rep B H. rewrite (set_profile_accepted_iff _ _ _ _ _ _ _ _ H).
  cbn [sc_step] in B. injection B as <- _. cbn [last_update]. assert (N : ~ too_soon st2 now2 None) by (intros (_ & n & t0 & _ & X & _); discriminate). tauto.
Qed.
Print Assumptions restart_forgets_rate.


Definition demo21 := demo_station V21 3 (Some 10).
Example profile_rate_limit_ex :
  let req t := (demo21, t * 10 ^ 9, OSet true (demo_profile 1 0 PTxDefault None) 0) in
  snd (sc_run sc_start_state [req 0; (demo21, 3 * 10 ^ 9, OClear None None); req 10]) =
  [TSet (Answer Accepted true); TOther; TSet (Answer Accepted true)].
Proof. vm_compute. reflexivity. Qed.

(** But requests that are refused for coming too soon start the period again: of three requests 9
    seconds apart, the last is refused although nothing was accepted for 18 seconds. *)
Theorem profile_rate_limit_refused_requests_refuted :
  exists st p, s_version st = V21 /\ s_rate st = Some 10 /\
  snd (sc_run sc_start_state [(st, 0, OSet true p 0); (st, 9 * 10 ^ 9, OSet true p 0); (st, 18 * 10 ^ 9, OSet true p 0)]) =
  [TSet (Answer Accepted true); TSet (Answer (Rejected "RateLimitExceeded") false);
   TSet (Answer (Rejected "RateLimitExceeded") false)].
Proof. exists demo21, (demo_profile 1 0 PTxDefault None). split; [reflexivity|]. split; [reflexivity|]. vm_compute. reflexivity. Qed.

(** ** C63: the stored profiles at any time *)

Theorem stored_profiles_conflict_free : forall l s' outs,
  sc_run sc_start_state l = (s', outs) -> conflict_free (db s') /\ Forall well_placed (db s').
Proof. intros l s' outs H. exact (run_sound l sc_start_state s' outs sound_empty H). Qed.
Print Assumptions stored_profiles_conflict_free.

Definition demo_history : list (station * Z * sc_op) :=
  [(demo, 0, OSet true (demo_profile 1 0 PTxDefault None) 0);
   (demo, 1, OSet true (demo_profile 2 0 PTxDefault None) 0);       (* overlaps *)
   (demo, 2, OSet true (demo_profile 3 0 PTxDefault None) 1);       (* stack level taken *)
   (demo, 3, OSet true (demo_profile 2 1 PTxDefault None) 1);
   (demo, 4, OSet true (demo_profile 4 0 PMax None) 0);
   (demo, 5, ORemote true (Some 2) false true (Some (demo_profile 5 0 PTx None)));
   (demo, 6, OSet true (demo_profile 6 0 PTx (Some 5)) 1);
   (demo, 7, OEnd 5)].
Example stored_profiles_conflict_free_ex :
  map (fun r => (pf_id (r_p r), r_evse r)) (db (fst (sc_run sc_start_state demo_history))) =
  [(1, 0); (2, 1); (4, 0); (5, 2)].
Proof. vm_compute. reflexivity. Qed.

(** When the station is started the profiles that can no longer be used are deleted: what stays
    meets the requirements, and what meets them stays. *)
Theorem boot_keeps_exactly_valid : forall st d rows,
  NoDup (map (fun r => pf_id (r_p r)) d) -> (forall x, In x rows <-> In x d) ->
  let d' := clear_invalid_charging_profiles st d rows in
  (exists f, d' = filter f d) /\
  (forall x, In x d' -> fit_for st d' SetProfile (r_evse x) (r_p x)) /\
  (forall x, In x d -> fit_for st d SetProfile (r_evse x) (r_p x) -> In x d').
Proof.
  intros st d rows N R d'. split; [apply boot_by_filter|]. split.
  - intros x Hx. apply boot_fit; [|exact Hx]. apply R. eapply boot_shrinks. exact Hx.
  - intros x Hx F. apply boot_keeps; [|exact Hx|exact F]. intros y Hy E. eapply nodup_ids_inj; [exact N|apply R; exact Hy|exact Hx|exact E].
Qed.
Print Assumptions boot_keeps_exactly_valid.

Example boot_keeps_exactly_valid_ex :
  let d := db (fst (sc_run sc_start_state demo_history)) in
  map (fun r => pf_id (r_p r)) (clear_invalid_charging_profiles demo d (rev d)) = [1; 2; 4] /\
  map (fun r => pf_id (r_p r)) (clear_invalid_charging_profiles (demo_station V201 1 None) d d) = [].
Proof. vm_compute. repeat split. Qed.

(** As long as no RequestStartTransaction carries a transaction id, no two TxProfiles for one
    transaction are on one stack level. *)
Definition one_per_level (d : list row) : Prop :=
  forall x y, In x d -> In y d -> pf_id (r_p x) <> pf_id (r_p y) ->
  pf_purpose (r_p x) = PTx -> pf_purpose (r_p y) = PTx ->
  pf_tx (r_p x) <> None -> pf_tx (r_p x) = pf_tx (r_p y) -> pf_stack (r_p x) <> pf_stack (r_p y).

Definition unbound (o : sc_op) : Prop :=
  match o with ORemote _ _ _ _ (Some p) => pf_tx p = None | _ => True end.

Lemma one_per_level_filter d d' : by_filter d d' -> one_per_level d -> one_per_level d'.
Proof.
  intros [f ->] H x y Hx Hy. apply filter_In in Hx as [Hx _]. apply filter_In in Hy as [Hy _]. apply H; assumption.
Qed.

Lemma one_per_level_insert st d src e p q :
  one_per_level d -> fit_for st d src e p -> spelled_out st e p q -> (src = SetProfile \/ pf_tx p = None) ->
  one_per_level (insert_profile d e q "CSO").
Proof.
  intros O F Q S. destruct (spelled_fields _ _ _ _ (fit_known _ _ _ _ _ F) Q) as (I1 & I2 & I3 & _ & I5 & _).
  assert (N : forall y, In y d -> pf_id (r_p y) <> pf_id q -> pf_purpose q = PTx -> pf_tx (r_p y) <> None ->
                        pf_tx (r_p y) = pf_tx q -> pf_stack (r_p y) <> pf_stack q).
  { intros y Hy Iy P T E L. destruct S as [->|S]; [|congruence]. apply (F TxProfileConflictingStackLevel).
    split; [congruence|]. split; [reflexivity|]. exists y. repeat (split; [first [assumption|congruence]|]). congruence. }
  intros x y Hx Hy. apply in_insert in Hx, Hy.
  destruct Hx as [->|[Hx Ix]], Hy as [->|[Hy Iy]]; cbn [r_p].
  - congruence.
  - intros Ne P1 P2 T E L. apply (N y Hy Iy P1); congruence.
  - intros Ne P1 P2 T E L. apply (N x Hx Ix P2); congruence.
  - apply O; assumption.
Qed.

Theorem one_tx_profile_per_level : forall l s' outs,
  Forall (fun x => unbound (snd x)) l -> sc_run sc_start_state l = (s', outs) -> one_per_level (db s').
Proof.
  intros l. assert (G : forall s s' outs, one_per_level (db s) -> Forall (fun x => unbound (snd x)) l ->
                        sc_run s l = (s', outs) -> one_per_level (db s')).
  2: { intros s' outs U H. eapply G; [|exact U|exact H]. intros x y []. }
  induction l as [|[[st now] o] l IH]; intros s s' outs O U H; cbn [sc_run] in H; [injection H as <- _; exact O|].
  inversion U as [|? ? U1 U2]; subst. cbn [snd] in U1.
  destruct (sc_step st now s o) as [s1 out] eqn:E1. destruct (sc_run s1 l) as [s2 outs'] eqn:E2.
  injection H as <- _. eapply IH; [|exact U2|exact E2]. clear E2 IH. destruct o; cbn [sc_step] in E1.
  - destruct (handle_set_charging_profile_req st s now stored p evse_id) as [s3 r] eqn:H. injection E1 as <- _.
    destruct (set_cases _ _ _ _ _ _ _ _ H) as [C _]. destruct r as [c|[|c] cb].
    + destruct C as (_ & _ & ->). exact O.
    + destruct C as (_ & NE & F & _ & _ & _ & q & Q & ->). eapply one_per_level_insert; try eassumption. left; reflexivity.
    + destruct C as (_ & _ & -> & _). exact O.
  - destruct (handle_remote_start_transaction_request st s now stored evse_id reserved starts p) as [[[s3 a] b] r] eqn:H.
    injection E1 as <- _. destruct (remote_cases _ _ _ _ _ _ _ _ _ _ _ _ H) as [_ C]. destruct evse_id as [e|].
    2: { destruct C as (_ & _ & ->). exact O. }
    destruct (get_evse st e); [|destruct C as (_ & _ & ->); exact O].
    destruct C as (_ & code & _ & [(_ & -> & _)|(q & a' & -> & _ & P & A & _)]); [exact O|].
    destruct (add_cases _ _ _ _ _ _ _ _ _ _ A) as [(r' & _ & _ & -> & _)|(F & _ & X)]; [exact O|].
    destruct X as [(_ & -> & _)|[(_ & _ & -> & _)|(_ & _ & _ & z & Q & ->)]]; [exact O|exact O|].
    eapply one_per_level_insert; try eassumption. right. exact U1.
  - destruct (handle_clear_charging_profile_req s id c) as [[[s3 a] b] r] eqn:H. injection E1 as <- _.
    eapply one_per_level_filter; [eapply clear_req_by_filter; exact H|exact O].
  - injection E1 as <- _. cbn [db]. eapply one_per_level_filter; [eexists; reflexivity|exact O].
  - injection E1 as <- _. cbn [db]. eapply one_per_level_filter; [apply boot_by_filter|exact O].
Qed.
Print Assumptions one_tx_profile_per_level.

Example one_tx_profile_per_level_ex :
  Forall (fun x => unbound (snd x)) demo_history /\
  snd (sc_run sc_start_state [(demo, 0, OSet true (demo_profile 1 0 PTx (Some 5)) 1);
                              (demo, 1, OSet true (demo_profile 2 0 PTx (Some 5)) 1)]) =
  [TSet (Answer Accepted true); TSet (Answer (Rejected "InvalidStackLevel") false)].
Proof. split; [repeat constructor|vm_compute; reflexivity]. Qed.

(** Two profiles for one transaction on one stack level are only kept apart when neither came
    with RequestStartTransaction. *)
Theorem one_tx_profile_per_level_refuted :
  exists l d x y, d = db (fst (sc_run sc_start_state l)) /\ In x d /\ In y d /\
  pf_id (r_p x) <> pf_id (r_p y) /\ pf_purpose (r_p x) = PTx /\ pf_purpose (r_p y) = PTx /\
  pf_tx (r_p x) = Some 5 /\ pf_tx (r_p y) = Some 5 /\ pf_stack (r_p x) = pf_stack (r_p y).
Proof.
  set (l := [(demo, 0, OSet true (demo_profile 1 0 PTx (Some 5)) 1);
             (demo, 1, ORemote true (Some 1) false true (Some (demo_profile 2 0 PTx (Some 5))))]).
  exists l, (db (fst (sc_run sc_start_state l))).
  eexists (nth 0 (db (fst (sc_run sc_start_state l))) {| r_evse := 0; r_source := ""; r_p := demo_profile 0 0 PMax None |}),
          (nth 1 (db (fst (sc_run sc_start_state l))) {| r_evse := 0; r_source := ""; r_p := demo_profile 0 0 PMax None |}).
  split; [reflexivity|]. split; [apply nth_In; vm_compute; lia|]. split; [apply nth_In; vm_compute; lia|].
  vm_compute. repeat split; discriminate.
Qed.

(** ** C64: an accepted profile takes part in the composite schedule *)

(** The profiles a composite schedule is made from. *)
Definition in_use (st : station) (d : list row) (e : Z) (q : profile) : Prop :=
  In q (get_valid_profiles_for_evse st d e []).

Lemma in_use_iff st d e q : in_use st d e q <->
  exists x, In x d /\ r_evse x = e /\ fit_for st d SetProfile e (r_p x) /\
            q = snd (conform_and_validate_profile st d (r_p x) e SetProfile).
Proof.
  unfold in_use, get_valid_profiles_for_evse, get_charging_profiles_for_evse. rewrite in_flat_map. split.
  - intros (p & Hp & Hq). apply in_map_iff in Hp as (x & <- & Hx). apply filter_In in Hx as [Hx Ex].
    apply Z.eqb_eq in Ex. exists x. split; [exact Hx|]. split; [exact Ex|].
    destruct (conform_and_validate_profile st d (r_p x) e SetProfile) as [r p'] eqn:E.
    destruct r; try (exfalso; exact Hq). cbn [in_purposes existsb] in Hq. destruct Hq as [->|[]].
    split; [|reflexivity]. eapply validate_complete. exact E.
  - intros (x & Hx & Ex & F & ->). exists (r_p x). split.
    + apply in_map. apply filter_In. split; [exact Hx|]. apply Z.eqb_eq. exact Ex.
    + destruct (conform_and_validate_profile st d (r_p x) e SetProfile) as [r p'] eqn:E.
      assert (r = Valid) by (eapply validate_iff; [exact E|exact F]). subst r. left. reflexivity.
Qed.

(** Missing for the full statement: profiles that do not say how many phases, on a single-phase AC
    station; see the next theorem. *)
Theorem accepted_profile_in_use_partial : forall st s now stored p e s' cb,
  handle_set_charging_profile_req st s now stored p e = (s', Answer Accepted cb) ->
  phases_given st e p -> exists q, spelled_out st e p q /\ in_use st (db s') e q.
Proof.
  intros st s now stored p e s' cb H PG. destruct (set_cases _ _ _ _ _ _ _ _ H) as [(_ & NE & F & _ & _ & _ & q & Q & D) _].
  exists q. split; [exact Q|]. apply in_use_iff. exists {| r_evse := e; r_source := "CSO"; r_p := q |}. rewrite D.
  split; [apply insert_replaced; left; reflexivity|]. split; [reflexivity|]. cbn [r_p].
  pose proof (revalidate _ _ _ _ _ F NE Q PG) as F'. split; [exact F'|].
  destruct (conform_and_validate_profile st (insert_profile (db s) e q "CSO") q e SetProfile) as [r q'] eqn:E.
  pose proof (fit_known _ _ _ _ _ F) as K. pose proof (spelled_conformed _ _ _ _ _ _ _ K E) as Q'.
  pose proof (spelled_again _ _ _ _ K Q) as Q2. cbn [snd].
  destruct Q' as [A1 B1], Q2 as [A2 B2]. pose proof (ac_iff st e K) as X.
  destruct (get_current_phase_type st (get_evse st e));
    [rewrite A1 by (apply X; reflexivity); apply A2, X; reflexivity
    |rewrite B1 by (rewrite <- X; discriminate); apply B2; rewrite <- X; discriminate
    |rewrite B1 by (rewrite <- X; discriminate); apply B2; rewrite <- X; discriminate].
Qed.
Print Assumptions accepted_profile_in_use_partial.

Example accepted_profile_in_use_ex :
  phases_given demo 1 (demo_profile 1 0 PTxDefault None) /\
  snd (handle_set_charging_profile_req demo sc_start_state 0 true (demo_profile 1 0 PTxDefault None) 1) =
  Answer Accepted true.
Proof. split; [intros _; left; cbn; lia|vm_compute; reflexivity]. Qed.

(** On a single-phase AC station a profile that does not say how many phases is accepted and
    stored with three phases.  From then on it is invalid: it is never used and is deleted when the
    station is started. *)
Theorem accepted_profile_in_use_refuted :
  exists st p s',
  handle_set_charging_profile_req st sc_start_state 0 true p 0 = (s', Answer Accepted true) /\
  (forall q, ~ in_use st (db s') 0 q) /\
  clear_invalid_charging_profiles st (db s') (db s') = [].
Proof.
  exists (demo_station V201 1 None), (demo_profile 1 0 PMax None).
  eexists. split; [vm_compute; reflexivity|]. split.
  - intros q. unfold in_use.
    match goal with |- ~ In q ?l => assert (E : l = []) by (vm_compute; reflexivity); rewrite E end. intros [].
  - vm_compute. reflexivity.
Qed.

(** A profile in use can be switched off by a later one of another purpose that carries the
    transaction id. *)
Theorem profile_switched_off_refuted :
  exists p1 p2 s1 s2,
  handle_set_charging_profile_req demo sc_start_state 0 true p1 1 = (s1, Answer Accepted true) /\
  (exists q, in_use demo (db s1) 1 q) /\
  handle_set_charging_profile_req demo s1 1 true p2 1 = (s2, Answer Accepted true) /\
  pf_purpose p1 = PTx /\ pf_purpose p2 = PTxDefault /\ pf_id p1 <> pf_id p2 /\
  (forall q, in_use demo (db s2) 1 q -> pf_purpose q <> PTx).
Proof.
  set (p1 := demo_profile 1 0 PTx (Some 5)). set (p2 := demo_profile 2 0 PTxDefault (Some 5)).
  exists p1, p2.
  set (s1 := fst (handle_set_charging_profile_req demo sc_start_state 0 true p1 1)).
  set (s2 := fst (handle_set_charging_profile_req demo s1 1 true p2 1)).
  exists s1, s2. split; [apply surjective_pairing|]. split.
  - assert (L : get_valid_profiles_for_evse demo (db s1) 1 [] <> []) by (vm_compute; discriminate).
    unfold in_use. destruct (get_valid_profiles_for_evse demo (db s1) 1 []) as [|q l]; [congruence|]. exists q. left. reflexivity.
  - split; [apply surjective_pairing|]. split; [reflexivity|]. split; [reflexivity|]. split; [vm_compute; discriminate|].
    intros q Hq P. unfold in_use in Hq.
    assert (X : existsb (fun q => purpose_eqb (pf_purpose q) PTx) (get_valid_profiles_for_evse demo (db s2) 1 []) = true).
    { apply existsb_exists. exists q. split; [exact Hq|]. apply purpose_iff. exact P. }
    vm_compute in X. discriminate.
Qed.

(** ** C65: profiles of RequestStartTransaction *)

(** A TxProfile without a transaction id, as RequestStartTransaction brings it, is never used and
    outlives every transaction. *)
Theorem remote_start_profile_used_refuted :
  (forall st d e p, pf_purpose p = PTx -> pf_tx p = None -> ~ fit_for st d SetProfile e p) /\
  exists l s', Forall (fun x => no_boot (snd x)) l /\ sc_run sc_start_state l = (s', [TRemote (RemoteAnswer true None); TOther]) /\
  exists x, db s' = [x] /\ pf_purpose (r_p x) = PTx /\ pf_tx (r_p x) = None /\ forall t, db (delete_transaction_tx_profiles s' t) = [x].
Proof.
  split.
  - intros st d e p P T F. apply (F TxProfileMissingTransactionId). split; [exact P|]. split; [reflexivity|exact T].
  - eexists [(demo, 0, ORemote true (Some 2) false true (Some (demo_profile 5 0 PTx None))); (demo, 1, OEnd 7)], _.
    split; [repeat constructor|]. split; [vm_compute; reflexivity|]. eexists. split; [reflexivity|].
    split; [reflexivity|]. split; [reflexivity|]. intros t. vm_compute. reflexivity.
Qed.

(** What never is used cannot limit: profiles in use meet the requirements for SetChargingProfile. *)
Theorem in_use_requires : forall st d e q, in_use st d e q ->
  exists x, In x d /\ r_evse x = e /\ fit_for st d SetProfile e (r_p x) /\ spelled_out st e (r_p x) q /\
            pf_purpose q <> PExternal.
Proof.
  intros st d e q H. apply in_use_iff in H as (x & Hx & Ex & F & ->). exists x. split; [exact Hx|]. split; [exact Ex|].
  split; [exact F|]. destruct (conform_and_validate_profile st d (r_p x) e SetProfile) as [r q] eqn:E. cbn [snd].
  pose proof (spelled_conformed _ _ _ _ _ _ _ (fit_known _ _ _ _ _ F) E) as Q. split; [exact Q|].
  destruct (spelled_fields _ _ _ _ (fit_known _ _ _ _ _ F) Q) as (_ & _ & -> & _).
  intros P. apply (F ExistingChargingStationExternalConstraints). exists x. auto.
Qed.
Print Assumptions in_use_requires.

(** ** C43: RequestStartTransaction *)

Definition can_start (ev : evse) : Prop := ev_tx ev = None /\ In true (ev_usable ev).

Lemma can_start_iff ev : is_evse_connector_available ev = true <-> can_start ev.
Proof.
  unfold is_evse_connector_available, can_start. rewrite andb_true_iff, negb_true_iff, some_niff, existsb_exists.
  split; intros [A B]; (split; [exact A|]).
  - destruct B as (x & Hx & ->). exact Hx.
  - exists true. auto.
Qed.

(** A transaction is only started on an EVSE that has none, has a usable connector and is not
    reserved for someone else; the application is asked and the start remembered exactly then. *)
Theorem remote_start_answer : forall st s now stored eid reserved starts p s' remembered asked_app rep,
  handle_remote_start_transaction_request st s now stored eid reserved starts p = (s', remembered, asked_app, rep) ->
  (asked_app = true <-> exists e ev, eid = Some e /\ evse_of st e ev /\ can_start ev /\ reserved = false) /\
  remembered = asked_app /\
  (rep = RemoteError <-> exists e, eid = Some e /\ ~ exists ev, evse_of st e ev) /\
  ((exists code, rep = RemoteAnswer true code) <-> asked_app = true /\ starts = true).
Proof.
  intros st s now stored eid reserved starts p s' rem cb rep H.
  destruct (remote_cases _ _ _ _ _ _ _ _ _ _ _ _ H) as [-> C]. destruct eid as [e|].
  2: { destruct C as (-> & -> & _). split; [split; [discriminate|intros (e & ev & E & _); discriminate]|].
       split; [reflexivity|]. split; [split; [discriminate|intros (e & E & _); discriminate]|].
       split; [intros (c & E); discriminate|intros [E _]; discriminate]. }
  destruct (get_evse st e) as [ev|] eqn:G.
  2: { destruct C as (-> & -> & _). assert (N : ~ exists ev, evse_of st e ev).
       { intros (ev & E). apply get_evse_iff in E. congruence. }
       split; [split; [discriminate|intros (e' & ev & E & E2 & _); exfalso; apply N; exists ev; congruence]|].
       split; [reflexivity|]. split; [split; [intros _; exists e; auto|reflexivity]|].
       split; [intros (c & E); discriminate|intros [E _]; discriminate]. }
  apply get_evse_iff in G. destruct C as (Cb & code & -> & _). split; [|split; [reflexivity|split]].
  - rewrite Cb, andb_true_iff, can_start_iff, negb_true_iff. split.
    + intros [A B]. exists e, ev. auto.
    + intros (e' & ev' & [= <-] & [_ E'] & A & B). destruct G as [_ G]. assert (ev' = ev) by congruence. subst. auto.
  - split; [discriminate|]. intros (e' & [= <-] & N). exfalso. apply N. exists ev. exact G.
  - split.
    + intros (c & [= E _]). apply andb_true_iff in E. exact E.
    + intros [-> ->]. exists code. reflexivity.
Qed.
Print Assumptions remote_start_answer.

Example remote_start_answer_ex :
  let ask e r := snd (handle_remote_start_transaction_request demo sc_start_state 0 true e r true None) in
  ask (Some 2) false = RemoteAnswer true None /\ ask (Some 2) true = RemoteAnswer false None /\
  ask (Some 1) false = RemoteAnswer false None /\ ask (Some 3) false = RemoteError /\
  ask None false = RemoteAnswer false None.
Proof. vm_compute. repeat split. Qed.

(** The stored profiles are only touched by a valid TxProfile. *)
Theorem remote_start_profile : forall st s now stored eid reserved starts p s' remembered asked_app rep,
  handle_remote_start_transaction_request st s now stored eid reserved starts p = (s', remembered, asked_app, rep) ->
  db s' = db s \/
  exists e q q', eid = Some e /\ p = Some q /\ pf_purpose q = PTx /\ s_enabled st = true /\
    fit_for st (db s) RemoteStart e q /\ spelled_out st e q q' /\
    replaced (db s) (db s') {| r_evse := e; r_source := "CSO"; r_p := q' |}.
Proof.
  intros st s now stored eid reserved starts p s' rem cb rep H.
  destruct (remote_cases _ _ _ _ _ _ _ _ _ _ _ _ H) as [_ C]. destruct eid as [e|].
  2: { left. destruct C as (_ & _ & ->). reflexivity. }
  destruct (get_evse st e); [|left; destruct C as (_ & _ & ->); reflexivity].
  destruct C as (_ & code & _ & [(_ & -> & _)|(q & a & -> & En & P & A & _)]); [left; reflexivity|].
  destruct (add_cases _ _ _ _ _ _ _ _ _ _ A) as [(r & _ & _ & -> & _)|(F & _ & X)]; [left; reflexivity|].
  destruct X as [(_ & -> & _)|[(_ & _ & -> & _)|(_ & _ & _ & z & Q & E)]]; [left; reflexivity|left; reflexivity|].
  right. exists e, q, z. rewrite E. repeat (split; [first [reflexivity|assumption]|]). apply insert_replaced.
Qed.
Print Assumptions remote_start_profile.

Example remote_start_profile_ex :
  fit_for demo [] RemoteStart 2 (demo_profile 5 0 PTx None).
Proof. apply fit_b_iff. vm_compute. reflexivity. Qed.

(** A start with an invalid profile is accepted all the same: the answer is Accepted, with the
    reason for refusing the profile. *)
Theorem remote_start_invalid_profile_refuted :
  exists p, ~ fit_for demo [] RemoteStart 2 p /\ pf_purpose p = PTx /\
  handle_remote_start_transaction_request demo sc_start_state 0 true (Some 2) false true (Some p) =
  (sc_start_state, true, true, RemoteAnswer true (Some "InvalidSchedule")).
Proof.
  set (p := demo_profile 5 0 PTx None).
  exists {| pf_id := 5; pf_stack := 0; pf_purpose := PTx; pf_kind := Absolute; pf_scheds := []; pf_recur := None;
            pf_from := None; pf_to := None; pf_tx := None; pf_dynint := false; pf_dyntime := false |}.
  split; [rewrite <- fit_b_iff; vm_compute; discriminate|]. split; [reflexivity|]. vm_compute. reflexivity.
Qed.

(** A profile of another purpose is ignored without a word. *)
Theorem remote_start_other_purpose_refuted :
  exists p, pf_purpose p = PTxDefault /\
  handle_remote_start_transaction_request demo sc_start_state 0 true (Some 2) false true (Some p) =
  (sc_start_state, true, true, RemoteAnswer true None).
Proof. exists (demo_profile 5 0 PTxDefault None). split; [reflexivity|vm_compute; reflexivity]. Qed.

(** A profile is stored although the start is refused. *)
Theorem remote_start_refused_stores_refuted :
  exists p s', handle_remote_start_transaction_request demo sc_start_state 0 true (Some 1) false true (Some p) =
  (s', false, false, RemoteAnswer false None) /\ db s' <> [].
Proof. exists (demo_profile 5 0 PTx None). eexists. split; [vm_compute; reflexivity|discriminate]. Qed.

(** ** C49: clearing *)

(** By criteria: exactly the profiles that meet them all, and no external constraints. *)
Theorem clear_by_criteria : forall s c s' status code cb,
  (cc_evse c <> None \/ cc_purpose c <> None \/ cc_stack c <> None) -> cc_purpose c <> Some PExternal ->
  handle_clear_charging_profile_req s None (Some c) = (s', status, code, cb) ->
  removed (fun r => asked c r /\ ~ is_external r) (db s) (db s') /\
  (status = ClearAccepted <-> exists r, In r (db s) /\ asked c r /\ ~ is_external r) /\
  (cb = true <-> status = ClearAccepted) /\ code = None.
Proof.
  intros s c s' status code cb Some1 NE H. unfold handle_clear_charging_profile_req in H.
  assert (X : match cc_purpose c with Some PExternal => true | _ => false end = false).
  { destruct (cc_purpose c) as [[]|]; congruence. }
  rewrite X in H. clear X. unfold clear_charging_profiles_matching_criteria in H. cbn zeta in H.
  assert (X : is_some (cc_purpose c) || is_some (cc_evse c) || is_some (cc_stack c) = true).
  { rewrite !orb_true_iff, !some_iff. tauto. }
  rewrite X in H. clear X.
  set (f := fun r => negb (purpose_eqb (pf_purpose (r_p r)) PExternal) &&
                             opt_purpose (cc_purpose c) (pf_purpose (r_p r)) &&
                             opt_eq (cc_stack c) (pf_stack (r_p r)) &&
                             opt_eq (cc_evse c) (r_evse r)) in H.
  assert (F : forall r, f r = true <-> asked c r /\ ~ is_external r).
  { intros r. unfold f, asked, is_external. rewrite !andb_true_iff, negb_true_iff, !opt_eq_iff, opt_purpose_iff, purpose_niff. tauto. }
  injection H as <- <- <- <-. cbn [db]. split; [apply removed_filter; exact F|]. split; [|split; [|reflexivity]].
  - destruct (existsb f (db s)) eqn:E.
    + split; [intros _|reflexivity]. apply existsb_exists in E as (r & Hr & E). exists r. split; [exact Hr|apply F; exact E].
    + split; [discriminate|]. intros (r & Hr & A). apply F in A. exfalso. apply not_true_iff_false in E. apply E.
      apply existsb_exists. exists r. auto.
  - destruct (existsb f (db s)); split; congruence.
Qed.
Print Assumptions clear_by_criteria.

Example clear_by_criteria_ex :
  let s := fst (sc_run sc_start_state demo_history) in
  let c := {| cc_evse := None; cc_purpose := Some PTxDefault; cc_stack := Some 0 |} in
  let '(s', status, _, _) := handle_clear_charging_profile_req s None (Some c) in
  map (fun r => pf_id (r_p r)) (db s') = [2; 4; 5] /\ status = ClearAccepted.
Proof. vm_compute. repeat split. Qed.

(** By id. *)
Theorem clear_by_id : forall s i c s' status code cb,
  (forall x, c = Some x -> cc_purpose x <> Some PExternal) ->
  handle_clear_charging_profile_req s (Some i) c = (s', status, code, cb) ->
  removed (fun r => pf_id (r_p r) = i) (db s) (db s') /\
  (status = ClearAccepted <-> exists r, In r (db s) /\ pf_id (r_p r) = i) /\
  (cb = true <-> status = ClearAccepted) /\ code = None.
Proof.
  intros s i c s' status code cb NE H. unfold handle_clear_charging_profile_req in H.
  set (f := fun r => pf_id (r_p r) =? i) in *.
  assert (F : forall r, f r = true <-> pf_id (r_p r) = i) by (intros r; unfold f; apply Z.eqb_eq).
  assert (E : (s', status, code, cb) =
    ({| db := filter (fun r => negb (f r)) (db s); last_update := last_update s |},
     if existsb f (db s) then ClearAccepted else ClearUnknown, None, existsb f (db s))).
  { rewrite <- H. unfold clear_charging_profiles_matching_criteria. cbn zeta. destruct c as [c|]; [|reflexivity].
    specialize (NE c eq_refl). destruct (cc_purpose c) as [[]|]; try reflexivity. congruence. }
  clear H. injection E as -> -> -> ->. cbn [db]. split; [apply removed_filter; exact F|]. split; [|split; [|reflexivity]].
  - destruct (existsb f (db s)) eqn:E.
    + split; [intros _|reflexivity]. apply existsb_exists in E as (r & Hr & E). exists r. split; [exact Hr|apply F; exact E].
    + split; [discriminate|]. intros (r & Hr & A). apply F in A. exfalso. apply not_true_iff_false in E. apply E.
      apply existsb_exists. exists r. auto.
  - destruct (existsb f (db s)); split; congruence.
Qed.
Print Assumptions clear_by_id.

Example clear_by_id_ex :
  let s := fst (sc_run sc_start_state demo_history) in
  let '(s', status, _, _) := handle_clear_charging_profile_req s (Some 4) None in
  map (fun r => pf_id (r_p r)) (db s') = [1; 2; 5] /\ status = ClearAccepted.
Proof. vm_compute. repeat split. Qed.

(** Requests that clear nothing: external constraints by purpose, and no criterion at all. *)
Theorem clear_nothing : forall s i c s' status code cb,
  handle_clear_charging_profile_req s i (Some c) = (s', status, code, cb) ->
  (cc_purpose c = Some PExternal -> s' = s /\ status = ClearUnknown /\ code = Some "InvalidValue" /\ cb = false) /\
  (i = None -> cc_evse c = None -> cc_purpose c = None -> cc_stack c = None ->
   db s' = db s /\ status = ClearUnknown /\ cb = false).
Proof.
  intros s i c s' status code cb H. unfold handle_clear_charging_profile_req in H. split.
  - intros P. rewrite P in H. injection H as <- <- <- <-. auto.
  - intros -> E P S. rewrite P in H. unfold clear_charging_profiles_matching_criteria in H. rewrite E, P, S in H. cbn in H.
    injection H as <- <- <- <-. auto.
Qed.
Print Assumptions clear_nothing.

Example clear_nothing_ex :
  snd (handle_clear_charging_profile_req sc_start_state None
         (Some {| cc_evse := None; cc_purpose := Some PExternal; cc_stack := None |})) = false.
Proof. reflexivity. Qed.

(** All of them. *)
Theorem clear_all : forall s s' status code cb,
  handle_clear_charging_profile_req s None None = (s', status, code, cb) ->
  db s' = [] /\ status = ClearAccepted /\ cb = true.
Proof. intros s s' status code cb H. cbn in H. injection H as <- <- <- <-. auto. Qed.
Print Assumptions clear_all.

(** Only clearing by criteria spares external constraints: an id, or nothing at all, clears them
    too (no request of this model stores any; see [stored_profiles_conflict_free]).  With nothing
    stored, clearing everything is still Accepted. *)
Theorem clear_spares_external_refuted :
  exists x s, is_external x /\ db s = [x] /\
  db (fst (fst (fst (handle_clear_charging_profile_req s (Some (pf_id (r_p x))) None)))) = [] /\
  db (fst (fst (fst (handle_clear_charging_profile_req s None None)))) = [].
Proof.
  exists {| r_evse := 0; r_source := "SO"; r_p := demo_profile 3 0 PExternal None |}.
  eexists {| db := [_]; last_update := fun _ => None |}. split; [reflexivity|]. split; [reflexivity|]. vm_compute. auto.
Qed.

Theorem clear_empty_store_accepted_refuted :
  snd (fst (fst (handle_clear_charging_profile_req sc_start_state None None))) = ClearAccepted.
Proof. reflexivity. Qed.

(** The end of a transaction removes exactly the profiles with its id. *)
Theorem transaction_end_clears : forall s t,
  removed (fun r => pf_tx (r_p r) = Some t) (db s) (db (delete_transaction_tx_profiles s t)).
Proof.
  intros s t. unfold delete_transaction_tx_profiles. cbn [db]. apply removed_filter. intros r. rewrite opt_is_iff. split.
  - intros (x & E & B). apply Z.eqb_eq in B. congruence.
  - intros E. exists t. split; [exact E|apply Z.eqb_refl].
Qed.
Print Assumptions transaction_end_clears.

Example transaction_end_clears_ex :
  let s := fst (handle_set_charging_profile_req demo sc_start_state 0 true (demo_profile 6 0 PTx (Some 5)) 1) in
  (List.length (db s), db (delete_transaction_tx_profiles s 5)) = (1%nat, []).
Proof. vm_compute. reflexivity. Qed.

(** ** C49: reporting *)

(** Every profile asked for is reported exactly once, with its EVSE and source, in requests with
    the id of the request, of which all but the last announce more. *)
Theorem profiles_reported_once : forall s request_id evse_id c status reports,
  (forall x y, In x (db s) -> In y (db s) -> same_text (r_source x) (r_source y) -> r_source x = r_source y) ->
  handle_get_charging_profiles_req s request_id evse_id c = (status, reports) ->
  exists rows, (forall r, In r rows <-> In r (db s) /\ matches evse_id c r) /\ (exists f, rows = filter f (db s)) /\
  (status = NoProfiles <-> rows = []) /\
  Permutation (reported reports) (map as_reported rows) /\
  Forall (fun r => rp_request r = request_id /\ rp_profiles r <> []) reports /\
  (rows <> [] -> marked reports) /\ (rows = [] -> reports = []).
Proof.
  intros s req evse_id c status reps U H. destruct (get_cases _ _ _ _ _ _ H) as (f & F & C). cbn zeta in C.
  exists (filter f (db s)). split; [intros r; rewrite filter_In, F; reflexivity|]. split; [exists f; reflexivity|].
  destruct C as [(E & -> & ->)|(N & -> & A & X)].
  - rewrite E. split; [tauto|]. split; [constructor|]. split; [constructor|]. split; [congruence|reflexivity].
  - destruct X as (M & P).
    { intros x y Hx Hy. apply filter_In in Hx as [Hx _]. apply filter_In in Hy as [Hy _]. apply U; assumption. }
    split; [split; [discriminate|congruence]|]. split; [exact P|]. split; [exact A|]. split; [intros _; exact M|congruence].
Qed.
Print Assumptions profiles_reported_once.

Definition any_profile : criterion := {| cr_purpose := None; cr_stack := None; cr_ids := None; cr_sources := None |}.
Example profiles_reported_once_ex :
  let s := fst (sc_run sc_start_state demo_history) in
  let '(st, reps) := handle_get_charging_profiles_req s 9 None any_profile in
  st = Reporting /\ map (fun r => (rp_evse r, map pf_id (rp_profiles r), rp_tbc r)) reps =
  [(0, [1; 4], true); (1, [2], true); (2, [5], false)].
Proof. vm_compute. split; reflexivity. Qed.

(** The hypothesis on the sources holds for everything stored by requests: *)
Theorem stored_sources : forall l s' outs x y,
  sc_run sc_start_state l = (s', outs) -> In x (db s') -> In y (db s') -> r_source x = r_source y.
Proof.
  intros l s' outs x y H Hx Hy. destruct (stored_profiles_conflict_free l s' outs H) as [_ W].
  rewrite Forall_forall in W. destruct (W x Hx) as (_ & -> & _). destruct (W y Hy) as (_ & -> & _). reflexivity.
Qed.
Print Assumptions stored_sources.

Example stored_sources_ex : In "CSO" (map r_source (db (fst (sc_run sc_start_state demo_history)))).
Proof. vm_compute. left. reflexivity. Qed.

(** Without it a profile is reported once per spelling of its source. *)
Theorem profiles_reported_once_refuted :
  exists s, List.length (db s) = 2%nat /\
  List.length (reported (snd (handle_get_charging_profiles_req s 9 None any_profile))) = 4%nat.
Proof.
  exists {| db := [{| r_evse := 0; r_source := "CSO"; r_p := demo_profile 1 0 PMax None |};
                   {| r_evse := 0; r_source := "cso"; r_p := demo_profile 2 1 PMax None |}]; last_update := fun _ => None |}.
  vm_compute. auto.
Qed.
