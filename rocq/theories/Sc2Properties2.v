(** OCPP 2.x composite schedules (C47). *)

From Coq Require Import ZArith String List Bool Lia Permutation Sorted.
From Verif Require Import P2Model P2Spec P2Proofs P2Proofs2 P2Proofs3 P2Proofs4 Sc2Model Sc2Spec Sc2Spec2
  Sc2Proofs Sc2Proofs2 Sc2Proofs3 Sc2Proofs5 Sc2Proofs6 Sc2Proofs7 Sc2Properties.
Import ListNotations.
Open Scope string_scope.
Open Scope Z_scope.

(** ** A station for the examples *)

Fixpoint insert_by (key : entry -> Z) (e : entry) (l : list entry) : list entry :=
  match l with
  | [] => [e]
  | x :: r => if key e <=? key x then e :: l else x :: insert_by key e r
  end.
Definition sort_by (key : entry -> Z) (l : list entry) : list entry := fold_right (insert_by key) [] l.

Lemma insert_perm key e l : Permutation (e :: l) (insert_by key e l).
Proof.
  induction l as [|x l IH]; cbn; [reflexivity|]. destruct (key e <=? key x); [reflexivity|].
  etransitivity; [apply perm_swap|]. apply perm_skip. exact IH.
Qed.
Lemma sort_sorts key : sorts (sort_by key) (fun a b => key a <= key b).
Proof.
  intros l. induction l as [|e l [IH1 IH2]]; [split; constructor|].
  change (sort_by key (e :: l)) with (insert_by key e (sort_by key l)). split.
  - etransitivity; [apply perm_skip; exact IH1|]. apply insert_perm.
  - revert IH2. generalize (sort_by key l). intros m S. induction S as [|x m S IH Hx]; cbn.
    + constructor; constructor.
    + destruct (Z.leb_spec (key e) (key x)) as [H|H].
      * constructor; [constructor; assumption|]. constructor; [exact H|].
        eapply Forall_impl; [|exact Hx]. cbn. intros; lia.
      * constructor; [exact IH|]. apply Forall_forall. intros y Hy.
        apply (Permutation_in _ (Permutation_sym (insert_perm key e m))) in Hy as [<-|Hy]; [lia|].
        rewrite Forall_forall in Hx. apply Hx. exact Hy.
Qed.
Definition ex_date := sort_by e_start.
Definition ex_stack := sort_by (fun e => - e_stack e).
Lemma ex_sd : sorts ex_date by_start.
Proof. exact (sort_sorts e_start). Qed.
Lemma ex_ss : sorts ex_stack by_stack.
Proof.
  intros l. destruct (sort_sorts (fun e => - e_stack e) l) as [H1 H2]. split; [exact H1|].
  unfold ex_stack. clear H1. induction H2 as [|x m _ IH Hx]; [constructor|]. constructor; [exact IH|].
  eapply Forall_impl; [|exact Hx]. cbn. unfold by_stack. intros; lia.
Qed.
Definition ex_ar : arith :=
  {| f_add := Z.add; f_mul := fun a b => a * b / 2 ^ 149; f_div := fun a b => a * 2 ^ 149 / b;
     f_of_int := fun x => x * 2 ^ 149 |}.
Definition sec (x : Z) : Z := x * 10 ^ 9.

(** ** Answers *)

Definition chosen (st : station) (requested : option runit) (u : runit) : Prop :=
  match requested with
  | Some r => u = r /\ In u (s_units st)
  | None => exists l, s_units st = u :: l
  end.

Definition asked_for ar sort_date sort_stack st d now e duration requested offline simulate :=
  get_composite_schedule_internal ar sort_date sort_stack st d now e duration requested offline simulate.

(** A schedule is given exactly for known EVSEs and supported units; otherwise the reason says which
    of the two is the matter.  What is given is for the EVSE, the unit, and the time asked for. *)
Theorem composite_answer : forall ar sort_date sort_stack st d now e duration requested offline simulate,
  match asked_for ar sort_date sort_stack st d now e duration requested offline simulate with
  | inl c => known st e /\ chosen st requested (co_unit c) /\ co_evse c = e /\ co_start c = secs now /\
             (- 2147483648 <= duration <= 2147483647 -> co_duration c = duration)
  | inr code => (code = "UnsupportedRateUnit" /\ forall u, ~ chosen st requested u) \/
                (code = "InvalidValue" /\ ~ known st e /\ exists u, chosen st requested u)
  end.
Proof.
  intros ar sdt sst st d now e duration requested offline simulate. unfold asked_for, get_composite_schedule_internal.
  assert (U : match (match requested with
                     | Some x => if existsb (unit_eqb x) (s_units st) then Some x else None
                     | None => hd_error (s_units st) end) with
              | Some u => chosen st requested u
              | None => forall u, ~ chosen st requested u end).
  { unfold chosen. destruct requested as [r|].
    - destruct (existsb (unit_eqb r) (s_units st)) eqn:E.
      + split; [reflexivity|]. apply existsb_exists in E as (y & Hy & Ey). destruct r, y; try discriminate Ey; exact Hy.
      + intros u [-> H]. assert (existsb (unit_eqb r) (s_units st) = true); [|congruence].
        apply existsb_exists. exists r. split; [exact H|]. destruct r; reflexivity.
    - destruct (s_units st) as [|u l]; cbn [hd_error]; [intros u (l & E); discriminate|exists l; reflexivity]. }
  destruct (match requested with Some _ => _ | None => _ end) as [u|].
  - destruct (evse_exists st e) eqn:K.
    + cbn [co_evse co_unit co_start co_duration]. split; [apply evse_exists_iff; exact K|]. split; [exact U|].
      split; [reflexivity|]. split; [reflexivity|]. intros B. unfold elapsed_seconds, floor_seconds, NS.
      rewrite Z.div_add by lia. unfold clamp_int.
      replace (now / 1000000000 + duration - now / 1000000000) with duration by lia.
      unfold INT_MAX. rewrite (proj2 (Z.leb_le duration 2147483647)) by lia. rewrite Z.mod_small by lia. lia.
    + right. split; [reflexivity|]. split; [|exists u; exact U]. rewrite <- evse_exists_iff, K. discriminate.
  - left. split; [reflexivity|exact U].
Qed.
Print Assumptions composite_answer.

Example composite_answer_ex :
  let ask e r := asked_for ex_ar ex_date ex_stack demo [] (sec 100) e 60 r false false in
  (exists c, ask 1 None = inl c /\ co_duration c = 60) /\ ask 3 None = inr "InvalidValue" /\
  ask 1 (Some UW) = inr "UnsupportedRateUnit".
Proof. split; [eexists; split; [vm_compute; reflexivity|reflexivity]|]. split; vm_compute; reflexivity. Qed.

(** ** C47: what the schedule of an EVSE says

    Missing for the full statement: what the schedule says about L2 and L3 between the starts of
    its periods, see [composite_other_phases_refuted]. *)

Theorem composite_schedule_evse_partial : forall ar sort_date sort_stack st d now e duration requested offline simulate c ev,
  sorts sort_date by_start -> sorts sort_stack by_stack ->
  0 < duration <= 2147483647 -> evse_of st e ev ->
  (forall p, counts_for st d offline e p -> sane (secs now) (secs now + duration) (started ev) p) ->
  (s_version st = V21 -> forall p, counts_for st d offline e p -> shareable ar p) ->
  asked_for ar sort_date sort_stack st d now e duration requested offline simulate = inl c ->
  follows (co_periods c) (secs now) duration
    (fun t x => exists w m, demands st d offline simulate (secs now) e ev t w /\
                            station_allows st d offline (secs now) t m /\
                            x = in_unit ar st (co_unit c) (evse_rule ar (s_version st) w m)).
Proof.
  intros ar sdt sst st d now e duration requested offline simulate c ev Hd Hs L He Hsane Hsh H.
  unfold asked_for, get_composite_schedule_internal in H.
  destruct (match requested with Some _ => _ | None => _ end) as [u|]; [|discriminate].
  destruct (evse_exists st e); [|discriminate]. injection H as <-. cbn [co_unit co_periods].
  assert (E : floor_seconds (now + duration * NS) = secs now + duration)
    by (unfold floor_seconds, secs, NS; rewrite Z.div_add by lia; reflexivity).
  pose proof (evse_follows ar sdt sst Hd Hs now (now + duration * NS)) as T. rewrite E in T.
  change (floor_seconds now) with (secs now) in T.
  replace (secs now + duration - secs now) with duration in T by lia.
  apply T; assumption.
Qed.
Print Assumptions composite_schedule_evse_partial.

(** ** ... and the schedule of the station *)

Theorem composite_schedule_station_partial : forall ar sort_date sort_stack st d now duration requested offline simulate c,
  sorts sort_date by_start -> sorts sort_stack by_stack ->
  0 < duration <= 2147483647 -> s_evses st <> [] ->
  (forall e ev, evse_of st e ev -> forall p, counts_for st d offline e p ->
                sane (secs now) (secs now + duration) (started ev) p) ->
  (s_version st = V21 -> forall e p, counts_for st d offline e p -> shareable ar p) ->
  (forall t ws m, secs now <= t < secs now + duration -> all_demand st d offline simulate (secs now) t ws ->
                  station_allows st d offline (secs now) t m -> addable ar st ws m) ->
  asked_for ar sort_date sort_stack st d now 0 duration requested offline simulate = inl c ->
  follows (co_periods c) (secs now) duration
    (fun t x => exists ws m, all_demand st d offline simulate (secs now) t ws /\
                             station_allows st d offline (secs now) t m /\
                             x = in_unit ar st (co_unit c) (station_rule ar st ws m)).
Proof.
  intros ar sdt sst st d now duration requested offline simulate c Hd Hs L Hne Hsane Hsh Hadd H.
  unfold asked_for, get_composite_schedule_internal in H.
  destruct (match requested with Some _ => _ | None => _ end) as [u|]; [|discriminate].
  destruct (evse_exists st 0); [|discriminate]. injection H as <-. cbn [co_unit co_periods].
  assert (E : floor_seconds (now + duration * NS) = secs now + duration)
    by (unfold floor_seconds, secs, NS; rewrite Z.div_add by lia; reflexivity).
  pose proof (station_follows ar sdt sst Hd Hs now (now + duration * NS)) as T. rewrite E in T.
  change (floor_seconds now) with (secs now) in T.
  replace (secs now + duration - secs now) with duration in T by lia.
  apply T; assumption.
Qed.
Print Assumptions composite_schedule_station_partial.

(** ** Deciding the hypotheses on concrete values *)

Definition regular_b (x : Z) : bool := (x mod 2 ^ 97 =? 0) && (Z.abs x <? 2 ^ 276).
Lemma regular_b_ok x : regular_b x = true -> regular x.
Proof.
  unfold regular_b, regular. intros H. apply andb_true_iff in H as [A B]. apply Z.eqb_eq in A. apply Z.ltb_lt in B.
  split; [|exact B]. apply Z.mod_divide; [discriminate|exact A].
Qed.
Definition opt_b (f : Z -> bool) (o : option Z) : bool := match o with Some x => f x | None => true end.
Definition tri_b (f : Z -> bool) (x : otri) : bool := opt_b f (t1 x) && opt_b f (t2 x) && opt_b f (t3 x).
Lemma tri_b_ok f (P : Z -> Prop) x : (forall v, f v = true -> P v) -> tri_b f x = true -> tri_ok P x.
Proof.
  intros H E. unfold tri_b in E. apply andb_true_iff in E as [E C]. apply andb_true_iff in E as [A B].
  unfold tri_ok. destruct x as [[a|] [b|] [c|]]; cbn in *; repeat split; auto.
Qed.
Definition pos_b (x : Z) : bool := regular_b x && (0 <=? x).
Definition neg_b (x : Z) : bool := regular_b x && (x <? 0).
Lemma pos_b_ok x : pos_b x = true -> regular x /\ 0 <= x.
Proof. intros H. apply andb_true_iff in H as [A B]. split; [apply regular_b_ok; exact A|apply Z.leb_le; exact B]. Qed.
Lemma neg_b_ok x : neg_b x = true -> regular x /\ x < 0.
Proof. intros H. apply andb_true_iff in H as [A B]. split; [apply regular_b_ok; exact A|apply Z.ltb_lt; exact B]. Qed.

Definition tidy_b (w : want) : bool :=
  tri_b pos_b (w_cur w) && tri_b pos_b (w_pow w) && tri_b neg_b (w_dcur w) && tri_b neg_b (w_dpow w) &&
  tri_b regular_b (w_scur w) && tri_b regular_b (w_spow w).
Lemma tidy_b_ok w : tidy_b w = true -> tidy w.
Proof.
  unfold tidy_b. intros H. do 5 (apply andb_true_iff in H as [H ?]).
  unfold tidy. split; [|split; [|split; [|split; [|split]]]]; (eapply tri_b_ok; [|eassumption]; first [exact pos_b_ok|exact neg_b_ok|exact regular_b_ok]).
Qed.

Definition sane_b (p : profile) : bool :=
  forallb (fun c => (sp_start c <=? 2147483647) && tri_b pos_b (sp_limit c) && tri_b neg_b (sp_dis c) &&
                    tri_b regular_b (sp_set c)) (sc_periods (the_schedule p)) &&
  match pf_kind p, sc_start (the_schedule p), pf_to p with
  | Absolute, Some s, Some u => - 2147483648 <=? secs u - secs s
  | _, _, _ => false
  end.
Lemma sane_b_ok now en session p : sane_b p = true -> sane now en session p.
Proof.
  unfold sane_b. intros H. apply andb_true_iff in H as [A B]. rewrite forallb_forall in A. split; [|split].
  - apply Forall_forall. intros c Hc. specialize (A c Hc). repeat (apply andb_true_iff in A as [A ?]). apply Z.leb_le. exact A.
  - apply Forall_forall. intros c Hc. specialize (A c Hc). repeat (apply andb_true_iff in A as [A ?]).
    split; [|split]; (eapply tri_b_ok; [|eassumption]); [exact pos_b_ok|exact neg_b_ok|exact regular_b_ok].
  - unfold near_valid_to. destruct (pf_kind p) eqn:K; try discriminate B.
    destruct (sc_start (the_schedule p)) as [s|] eqn:S; [|discriminate B]. destruct (pf_to p) as [u|]; [|discriminate B].
    intros t x _ O. unfold occurrence in O. rewrite K, S in O. injection O as <-. apply Z.leb_le. exact B.
Qed.

Definition shareable_b (ar : arith) (p : profile) : bool :=
  forallb (fun c => opt_b (fun n => n <=? 3) (sp_phases c) &&
    (unit_eqb (sc_unit (the_schedule p)) UA ||
     forallb (fun k => let share x := f_div ar x (f_of_int ar k) in
       tri_b (fun x => pos_b (share x)) (limit_of c UW) && tri_b (fun x => neg_b (share x)) (sp_dis c) &&
       tri_b (fun x => regular_b (share x)) (sp_set c)) [2; 3])) (sc_periods (the_schedule p)).
Lemma shareable_b_ok ar p : shareable_b ar p = true -> shareable ar p.
Proof.
  unfold shareable_b, shareable. intros H. rewrite forallb_forall in H. apply Forall_forall. intros c Hc.
  specialize (H c Hc). apply andb_true_iff in H as [A B]. split.
  - intros n E. rewrite E in A. apply Z.leb_le. exact A.
  - intros U k K. rewrite U in B. cbn [unit_eqb orb] in B. rewrite forallb_forall in B.
    specialize (B k ltac:(destruct K as [-> | ->]; cbn; auto)). cbn zeta in *.
    apply andb_true_iff in B as [B C]. apply andb_true_iff in B as [B D].
    split; [|split]; (eapply tri_b_ok; [|eassumption]); cbv beta; intros v; [apply pos_b_ok|apply neg_b_ok|apply regular_b_ok].
Qed.

Definition equalisable_b ar by_phase n l : bool := negb by_phase || forallb (fun w => tidy_b (equalised ar n w)) l.
Lemma equalisable_b_ok ar b n l : equalisable_b ar b n l = true -> equalisable ar b n l.
Proof.
  unfold equalisable_b, equalisable. intros H ->. cbn [negb orb] in H. rewrite forallb_forall in H.
  apply Forall_forall. intros x Hx. apply in_map_iff in Hx as (w & <- & Hw). apply tidy_b_ok. apply H. exact Hw.
Qed.
Definition addable_b ar st ws m : bool :=
  let v := s_version st in
  let l := map (one_by_one ar v) ws in
  let t := together ar st ws in
  equalisable_b ar (per_phase v l) (most_phases l) l && tidy_b t &&
  equalisable_b ar (match v with V21 => true | V201 => false end) (strictest_phases [t; m]) [t; m].
Lemma addable_b_ok ar st ws m : addable_b ar st ws m = true -> addable ar st ws m.
Proof.
  unfold addable_b, addable. intros H. cbn zeta in *. apply andb_true_iff in H as [H C]. apply andb_true_iff in H as [A B].
  split; [apply equalisable_b_ok; exact A|]. split; [apply tidy_b_ok; exact B|apply equalisable_b_ok; exact C].
Qed.

(** All profiles in use, and all demands they can make. *)
Definition in_db (st : station) (d : list row) (offline : bool) : list profile :=
  flat_map (fun x => get_valid_profiles_for_evse st d (r_evse x) (purposes_to_ignore st offline)) d.
Lemma counts_in_db st d offline e q : counts_for st d offline e q -> In q (in_db st d offline).
Proof.
  intros (x & Hx & _ & F & Q & N). apply in_flat_map. exists x. split; [exact Hx|]. apply valid_iff.
  exists x. split; [exact Hx|]. split; [reflexivity|]. split; [exact F|]. split; [exact Q|]. apply ignored_iff. exact N.
Qed.
Definition all_wants (l : list profile) : list want :=
  nothing :: flat_map (fun p => map (fun c => wanted_by (Some (p, c))) (sc_periods (the_schedule p))) l.
Lemma from_in_wants (P : profile -> Prop) l pu now s t r :
  (forall p, P p -> In p l) -> decides P pu now s t r -> In (wanted_by r) (all_wants l).
Proof.
  intros H D. destruct r as [[p c]|]; [right|left; reflexivity]. destruct D as (A & _ & B & _).
  apply in_flat_map. exists p. split; [apply H; exact A|]. apply in_map_iff. exists c. split; [reflexivity|].
  eapply in_force_in. exact B.
Qed.
Lemma demands_in_wants st d offline simulate now e ev t w :
  demands st d offline simulate now e ev t w -> In w (all_wants (in_db st d offline)).
Proof.
  intros [(_ & _ & ->)|(_ & tx & txd & A & B & ->)]; [left; reflexivity|].
  apply (from_in_wants _ (in_db st d offline)) in A; [|intros p; apply counts_in_db].
  apply (from_in_wants _ (in_db st d offline)) in B; [|intros p; apply counts_in_db].
  unfold override. destruct (silent (wanted_by tx)); [|exact A]. destruct (silent (wanted_by txd)); [left; reflexivity|exact B].
Qed.
Lemma allows_in_wants st d offline now t m :
  station_allows st d offline now t m -> In m (all_wants (in_db st d offline)).
Proof. intros (r & D & ->). eapply from_in_wants; [|exact D]. intros p. apply counts_in_db. Qed.

Fixpoint tuples {A} (n : nat) (l : list A) : list (list A) :=
  match n with O => [[]] | S k => flat_map (fun x => map (cons x) (tuples k l)) l end.
Lemma in_tuples {A} (l ws : list A) : (forall w, In w ws -> In w l) -> In ws (tuples (List.length ws) l).
Proof.
  induction ws as [|w ws IH]; intros H; [left; reflexivity|]. cbn. apply in_flat_map. exists w.
  split; [apply H; left; reflexivity|]. apply in_map. apply IH. intros x Hx. apply H. right. exact Hx.
Qed.

Lemma check_sane st d offline :
  forallb sane_b (in_db st d offline) = true ->
  forall e session now en p, counts_for st d offline e p -> sane now en session p.
Proof.
  intros H e session now en p Hp. apply sane_b_ok. rewrite forallb_forall in H. apply H. eapply counts_in_db. exact Hp.
Qed.
Lemma check_shareable ar st d offline :
  forallb (shareable_b ar) (in_db st d offline) = true -> forall e p, counts_for st d offline e p -> shareable ar p.
Proof.
  intros H e p Hp. apply shareable_b_ok. rewrite forallb_forall in H. apply H. eapply counts_in_db. exact Hp.
Qed.
Lemma check_addable ar st d offline :
  let l := all_wants (in_db st d offline) in
  forallb (fun ws => forallb (addable_b ar st ws) l) (tuples (List.length (s_evses st)) l) = true ->
  forall simulate now t ws m, all_demand st d offline simulate now t ws -> station_allows st d offline now t m ->
                              addable ar st ws m.
Proof.
  cbn zeta. intros H simulate now t ws m [A1 A2] M. apply addable_b_ok. rewrite forallb_forall in H.
  assert (I : In ws (tuples (List.length (s_evses st)) (all_wants (in_db st d offline)))).
  { rewrite <- A1. apply in_tuples. intros w Hw. apply In_nth_error in Hw as (i & Hi).
    assert (Hl : (i < List.length (s_evses st))%nat) by (rewrite <- A1; apply nth_error_Some; congruence).
    destruct (nth_error (s_evses st) i) as [ev|] eqn:E; [|apply nth_error_None in E; lia].
    eapply demands_in_wants. exact (A2 i ev w E Hi). }
  specialize (H ws I). rewrite forallb_forall in H. apply H. eapply allows_in_wants. exact M.
Qed.

(** Two three-phase EVSEs, transaction 5 on the first; 32 A and after a minute 13 A for the station,
    16 A by default, and a limit for each phase for the transaction. *)
Definition ac_evse (tx : option (Z * Z)) : evse :=
  {| ev_supply := Some 3; ev_dcctl := false; ev_tx := tx; ev_usable := [true] |}.
Definition ex_station (v : version) : station :=
  {| s_version := v; s_supply := 3; s_units := [UA; UW]; s_extra := []; s_dynamic := false;
     s_local := false; s_delay := false; s_soc := false; s_sleep := false; s_switch := false;
     s_maxext := None; s_rate := None; s_available := true; s_enabled := true; s_ignored := [PMax];
     s_amps := None; s_watts := None; s_phases := None; s_volts := None;
     s_evses := [ac_evse (Some (5, sec 50)); ac_evse None] |}.
Definition fl (x : Z) : Z := x * 2 ^ 149.
Definition some3 (a b c : option Z) : otri :=
  {| t1 := option_map fl a; t2 := option_map fl b; t3 := option_map fl c |}.
Definition ex_period (start : Z) (limit dis set : otri) (mode : option opmode) : csp :=
  {| sp_start := start; sp_limit := limit; sp_phases := Some 3; sp_touse := None; sp_dis := dis; sp_set := set;
     sp_react := no_tri; sp_sleep := None; sp_baseline := false; sp_mode := mode; sp_curve := None |}.
Definition ex_limit (start x : Z) : csp := ex_period start (some3 (Some x) None None) no_tri no_tri None.
Definition ex_profile (id : Z) (pu : purpose) (u : runit) (l : list csp) (tx : option Z) : profile :=
  {| pf_id := id; pf_stack := 0; pf_purpose := pu; pf_kind := Absolute;
     pf_scheds := [{| sc_unit := u; sc_periods := l; sc_soc := false; sc_start := Some (sec 100);
                      sc_duration := None; sc_local := None; sc_delay := None |}];
     pf_recur := None; pf_from := None; pf_to := None; pf_tx := tx; pf_dynint := false; pf_dyntime := false |}.
Definition set_all (st : station) (l : list (profile * Z)) : list row :=
  db (fst (sc_run sc_start_state (map (fun x => (st, 0, OSet true (fst x) (snd x))) l))).
Definition ex_db (v : version) : list row := set_all (ex_station v)
  [(ex_profile 1 PMax UA [ex_limit 0 32; ex_limit 60 13] None, 0);
   (ex_profile 2 PTxDefault UA [ex_limit 0 16] None, 0);
   (ex_profile 3 PTx UA [ex_period 0 (some3 (Some 10) (Some 12) (Some 14)) no_tri no_tri None] (Some 5), 1)].

Definition shown (o : operiod) := (op_start o, op_limit o).

Example composite_schedule_evse_ex :
  let st := ex_station V21 in
  List.length (ex_db V21) = 3%nat /\ sorts ex_date by_start /\ sorts ex_stack by_stack /\
  evse_of st 1 (ac_evse (Some (5, sec 50))) /\
  (forall session now en p, counts_for st (ex_db V21) false 1 p -> sane now en session p) /\
  (forall p, counts_for st (ex_db V21) false 1 p -> shareable ex_ar p) /\
  exists c, asked_for ex_ar ex_date ex_stack st (ex_db V21) (sec 100) 1 600 None false false = inl c /\
            map shown (co_periods c) = [(0, some3 (Some 10) (Some 12) (Some 14))].
Proof.
  cbn zeta. split; [vm_compute; reflexivity|]. split; [exact ex_sd|]. split; [exact ex_ss|].
  split; [split; [lia|reflexivity]|].
  split; [intros session now en p; apply check_sane; vm_compute; reflexivity|].
  split; [intros p; apply check_shareable; vm_compute; reflexivity|].
  eexists. split; [vm_compute; reflexivity|vm_compute; reflexivity].
Qed.

Example composite_schedule_station_ex :
  forall v, s_evses (ex_station v) <> [] /\
  (forall e session now en p, counts_for (ex_station v) (ex_db v) false e p -> sane now en session p) /\
  (forall e p, counts_for (ex_station v) (ex_db v) false e p -> shareable ex_ar p) /\
  (forall simulate now t ws m, all_demand (ex_station v) (ex_db v) false simulate now t ws ->
     station_allows (ex_station v) (ex_db v) false now t m -> addable ex_ar (ex_station v) ws m) /\
  exists c, asked_for ex_ar ex_date ex_stack (ex_station v) (ex_db v) (sec 100) 0 600 None false true = inl c /\
            map shown (co_periods c) =
            match v with
            | V201 => [(0, some3 (Some 26) None None); (60, some3 (Some 13) None None)]
            | V21 => [(0, some3 (Some 26) (Some 28) (Some 30)); (60, some3 (Some 13) (Some 13) (Some 13))]
            end.
Proof.
  intros v. split; [discriminate|].
  split; [intros e session now en p; apply check_sane; destruct v; vm_compute; reflexivity|].
  split; [apply check_shareable; destruct v; vm_compute; reflexivity|].
  split; [intros simulate now t ws m; apply check_addable; destruct v; vm_compute; reflexivity|].
  destruct v; eexists; (split; [vm_compute; reflexivity|vm_compute; reflexivity]).
Qed.

(** ** Which profile decides *)

Lemma secs_lt a b t : secs a <= t -> t < secs b -> a < b.
Proof.
  unfold secs. intros A B. destruct (Z_lt_ge_dec a b) as [L|L]; [exact L|].
  assert (b / 1000000000 <= a / 1000000000) by (apply Z.div_le_mono; lia). lia.
Qed.

Lemma in_force_valid p now session t c f u :
  in_force p now session t = Some c -> pf_from p = Some f -> pf_to p = Some u -> secs f <= t /\ t < secs u.
Proof.
  unfold in_force. intros H F U. destruct (occurrence p now session t); [|discriminate]. rewrite F, U in H.
  match type of H with (if ?b then _ else _) = _ => destruct b eqn:E end; [|discriminate].
  do 4 (apply andb_true_iff in E as [E ?]). rewrite Z.leb_le in E. rewrite Z.ltb_lt in *. split; assumption.
Qed.

(** Of the stored profiles never two are equally entitled: what the rules above say is one thing only.
    (Ids are unique and validity periods filled in: [stored_profiles_conflict_free].) *)
Theorem decision_unique : forall st d offline e pu now session t r1 r2,
  NoDup (map (fun x => pf_id (r_p x)) d) ->
  (forall x, In x d -> pf_from (r_p x) <> None /\ pf_to (r_p x) <> None) ->
  In pu [PTx; PTxDefault; PMax] ->
  decides (counts_for st d offline e) pu now session t r1 ->
  decides (counts_for st d offline e) pu now session t r2 -> r1 = r2.
Proof.
  intros st d offline e pu now session t r1 r2 ND V PU D1 D2.
  destruct r1 as [[p1 c1]|], r2 as [[p2 c2]|]; [| | |reflexivity].
  2: { destruct D1 as (A & B & C & _). rewrite (D2 p1 A B) in C. discriminate. }
  2: { destruct D2 as (A & B & C & _). rewrite (D1 p2 A B) in C. discriminate. }
  destruct D1 as (A1 & B1 & C1 & M1), D2 as (A2 & B2 & C2 & M2).
  assert (S : pf_stack p1 = pf_stack p2).
  { specialize (M1 p2 A2 B2 ltac:(congruence)). specialize (M2 p1 A1 B1 ltac:(congruence)). lia. }
  clear M1 M2. destruct A1 as (x1 & I1 & E1 & F1 & Q1 & _), A2 as (x2 & I2 & E2 & F2 & Q2 & _).
  destruct (spelled_fields _ _ _ _ (fit_known _ _ _ _ _ F1) Q1) as (_ & S1 & P1 & _ & _ & FR1 & TO1 & _).
  destruct (spelled_fields _ _ _ _ (fit_known _ _ _ _ _ F2) Q2) as (_ & S2 & P2 & _ & _ & FR2 & TO2 & _).
  destruct (Z.eq_dec (pf_id (r_p x1)) (pf_id (r_p x2))) as [Eid|Nid].
  { assert (x1 = x2) as <- by (eapply nodup_ids_inj; eassumption).
    assert (p1 = p2) as <-.
    { destruct Q1 as [a1 b1], Q2 as [a2 b2].
      assert (D : is_ac st (r_evse x1) \/ ~ is_ac st (r_evse x1)).
      { pose proof (ac_iff st _ (fit_known _ _ _ _ _ F1)) as X.
        destruct (get_current_phase_type st (get_evse st (r_evse x1))); [left|right|right]; rewrite <- X; congruence. }
      destruct D as [D|D]; [rewrite (a1 D), (a2 D)|rewrite (b1 D), (b2 D)]; reflexivity. }
    congruence. }
  exfalso.
  destruct (in_force_valid _ _ _ _ _ _ _ C1 FR1 TO1) as [G1 H1].
  destruct (in_force_valid _ _ _ _ _ _ _ C2 FR2 TO2) as [G2 H2].
  assert (DUP : r_evse x1 = r_evse x2 -> pu <> PTx -> False).
  { intros EE NP. apply (F1 DuplicateProfileValidityPeriod). split; [congruence|]. exists x2.
    split; [exact I2|]. split; [congruence|]. split; [congruence|]. split; [congruence|]. split; [congruence|]. split.
    - destruct (V x2 I2) as [_ W]. unfold to_of in *. destruct (pf_to (r_p x2)) as [u|]; [|congruence]. exists u.
      split; [reflexivity|]. cbn [or_else] in *. pose proof (secs_lt _ _ _ G1 H2). lia.
    - intros f Ef. unfold from_of in *. rewrite Ef in *. cbn [or_else] in *. pose proof (secs_lt _ _ _ G2 H1). lia. }
  destruct PU as [<-|[<-|[<-|[]]]].
  - (* TxProfile *)
    assert (T : forall x, In x d -> (r_evse x = e \/ r_evse x = 0) -> fit_for st d SetProfile (r_evse x) (r_p x) ->
      pf_purpose (r_p x) = PTx -> exists ev tx, r_evse x = e /\ evse_of st e ev /\ ev_tx ev = Some tx /\ pf_tx (r_p x) = Some (fst tx)).
    { intros x Ix Ex Fx Px.
      assert (Pos : 0 < r_evse x).
      { destruct (Z_lt_ge_dec 0 (r_evse x)) as [L|L]; [exact L|]. exfalso. apply (Fx TxProfileEvseIdNotGreaterThanZero).
        split; [exact Px|lia]. }
      assert (r_evse x = e) as Ee by lia. rewrite Ee in *.
      destruct (fit_known _ _ _ _ _ Fx) as [K|(ev & K)]; [lia|]. exists ev.
      destruct (ev_tx ev) as [tx|] eqn:Et.
      - exists tx. split; [reflexivity|]. split; [exact K|]. split; [reflexivity|].
        destruct (pf_tx (r_p x)) as [i|] eqn:Ei.
        + destruct (Z.eq_dec i (fst tx)) as [->|N]; [reflexivity|]. exfalso. apply (Fx TxProfileTransactionNotOnEvse).
          split; [exact Px|]. split; [reflexivity|]. exists ev, tx. split; [exact K|]. split; [exact Et|congruence].
        + exfalso. apply (Fx TxProfileMissingTransactionId). split; [exact Px|]. split; [reflexivity|exact Ei].
      - exfalso. apply (Fx TxProfileEvseHasNoActiveTransaction). split; [exact Px|]. split; [reflexivity|].
        exists ev. split; assumption. }
    destruct (T x1 I1 E1 F1 ltac:(congruence)) as (ev1 & tx1 & W1 & K1 & L1 & X1).
    destruct (T x2 I2 E2 F2 ltac:(congruence)) as (ev2 & tx2 & W2 & K2 & L2 & X2).
    assert (ev1 = ev2) as <- by (destruct K1, K2; congruence).
    apply (F1 TxProfileConflictingStackLevel). split; [congruence|]. split; [reflexivity|]. exists x2.
    split; [exact I2|]. split; [congruence|]. split; [congruence|]. split; [congruence|congruence].
  - (* TxDefaultProfile *)
    destruct (Z.eq_dec (r_evse x1) (r_evse x2)) as [EE|EE]; [exact (DUP EE ltac:(discriminate))|].
    apply (F1 DuplicateTxDefaultProfileFound). split; [congruence|]. exists x2.
    split; [exact I2|]. split; [congruence|]. split; [congruence|]. split; [congruence|]. lia.
  - (* ChargingStationMaxProfile *)
    assert (Z0 : forall x, (r_evse x = e \/ r_evse x = 0) -> fit_for st d SetProfile (r_evse x) (r_p x) ->
      pf_purpose (r_p x) = PMax -> r_evse x = 0).
    { intros x Ex Fx Px. destruct (fit_known _ _ _ _ _ Fx) as [K|(ev & K & _)]; [exact K|]. exfalso.
      apply (Fx ChargingStationMaxProfileEvseIdGreaterThanZero). split; assumption. }
    apply DUP; [|discriminate]. rewrite (Z0 x1), (Z0 x2); try assumption; congruence.
Qed.
Print Assumptions decision_unique.

Example decision_unique_ex : forall v,
  NoDup (map (fun x => pf_id (r_p x)) (ex_db v)) /\
  Forall (fun x => pf_from (r_p x) <> None /\ pf_to (r_p x) <> None) (ex_db v).
Proof.
  intros v. split.
  - destruct v; vm_compute; repeat constructor; cbn; intuition discriminate.
  - apply Forall_forall. intros x Hx. destruct v; vm_compute in Hx; destruct Hx as [<-|[<-|[<-|[]]]]; split; discriminate.
Qed.

(** ** Never more than allowed *)

Lemma strictest_within ar b l w y :
  In w l -> t1 (w_cur w) = Some y -> exists x, t1 (w_cur (strictest ar b l)) = Some x /\ x <= y.
Proof.
  intros I E. unfold strictest. cbn [w_cur].
  set (l' := if b then map (equalised ar (strictest_phases l)) l else l).
  assert (exists w' y', In w' l' /\ t1 (w_cur w') = Some y' /\ y' <= y) as (w' & y' & I' & E' & L).
  { unfold l'. destruct b; [|exists w, y; split; [exact I|]; split; [exact E|lia]].
    exists (equalised ar (strictest_phases l) w).
    assert (exists y', t1 (w_cur (equalised ar (strictest_phases l) w)) = Some y' /\ y' <= y) as (y' & A & B).
    { unfold equalised. destruct (strictest_phases l) as [k|]; [|exists y; split; [exact E|lia]].
      destruct (k =? 1); [|destruct (1 <? k); [|exists y; split; [exact E|lia]]]; cbn [w_cur].
      - unfold on_one. rewrite E. cbn [t1]. destruct (omin (t2 (w_cur w)) (t3 (w_cur w))) as [z|]; cbn [omin]; eexists; (split; [reflexivity|lia]).
      - exists y. split; [|lia]. unfold on_each. rewrite E. destruct (t2 (w_cur w)), (t3 (w_cur w)); cbn [t1]; (exact E || reflexivity). }
    exists y'. split; [apply in_map; exact I|]. split; assumption. }
  clearbody l'. clear I E.
  assert (G : forall l a, (In w' l \/ exists z, t1 a = Some z /\ z <= y) ->
    exists x, t1 (fold_left (fun a w => three omin a (w_cur w)) l a) = Some x /\ x <= y).
  { clear I'. induction l0 as [|v l0 IH]; cbn [fold_left]; intros a H.
    - destruct H as [[]|H]. exact H.
    - apply IH. destruct H as [[->|H]|(z & Ez & Hz)]; [right|left; exact H|right]; cbn [three t1].
      + rewrite E'. destruct (t1 a) as [z|]; cbn [omin]; eexists; (split; [reflexivity|lia]).
      + rewrite Ez. destruct (t1 (w_cur v)) as [z'|]; cbn [omin]; eexists; (split; [reflexivity|lia]). }
  apply G. left. exact I'.
Qed.

Lemma expressed_within ar dflt ph vo w y :
  t1 (w_cur w) = Some y -> exists x, t1 (op_limit (expressed ar UA dflt ph vo w)) = Some x /\ x <= y.
Proof.
  intros E. unfold expressed. cbn [op_limit t1 three]. rewrite E.
  destruct (t1 (converted ar UA vo (or_else (w_phases w) ph) (w_pow w))) as [z|]; cbn [omin]; eexists; (split; [reflexivity|lia]).
Qed.

(** At no second does a schedule in amperes allow more than the deciding profiles do. *)
Theorem composite_never_above_evse : forall ar sort_date sort_stack st d now e duration requested offline simulate c ev,
  sorts sort_date by_start -> sorts sort_stack by_stack ->
  0 < duration <= 2147483647 -> evse_of st e ev ->
  (forall p, counts_for st d offline e p -> sane (secs now) (secs now + duration) (started ev) p) ->
  (s_version st = V21 -> forall p, counts_for st d offline e p -> shareable ar p) ->
  asked_for ar sort_date sort_stack st d now e duration requested offline simulate = inl c -> co_unit c = UA ->
  forall t, secs now <= t < secs now + duration ->
  exists o w m, look op_start (co_periods c) (t - secs now) = Some o /\
    demands st d offline simulate (secs now) e ev t w /\ station_allows st d offline (secs now) t m /\
    forall y, t1 (w_cur w) = Some y \/ t1 (w_cur m) = Some y -> exists x, t1 (op_limit o) = Some x /\ x <= y.
Proof.
  intros ar sdt sst st d now e duration requested offline simulate c ev Hd Hs L He Hsane Hsh H U t Ht.
  destruct (composite_schedule_evse_partial _ _ _ _ _ _ _ _ _ _ _ _ _ Hd Hs L He Hsane Hsh H) as (_ & _ & F).
  destruct (F t Ht) as (o & x & K & (w & m & D & A & ->) & E). exists o, w, m.
  split; [exact K|]. split; [exact D|]. split; [exact A|]. intros y Hy. rewrite U in E.
  assert (exists z, t1 (w_cur (evse_rule ar (s_version st) w m)) = Some z /\ z <= y) as (z & Ez & Lz).
  { unfold evse_rule. destruct Hy as [Hy|Hy]; eapply strictest_within; [|exact Hy| |exact Hy]; cbn; auto. }
  unfold in_unit in E. destruct (expressed_within ar (amps_limit ar st) (usual_phases st) (mains_voltage ar st) _ _ Ez) as (x & Ex & Lx).
  exists x. split; [|lia]. unfold first_phase in E. rewrite <- Ex. congruence.
Qed.
Print Assumptions composite_never_above_evse.

Theorem composite_never_above_station : forall ar sort_date sort_stack st d now duration requested offline simulate c,
  sorts sort_date by_start -> sorts sort_stack by_stack ->
  0 < duration <= 2147483647 -> s_evses st <> [] ->
  (forall e ev, evse_of st e ev -> forall p, counts_for st d offline e p ->
                sane (secs now) (secs now + duration) (started ev) p) ->
  (s_version st = V21 -> forall e p, counts_for st d offline e p -> shareable ar p) ->
  (forall t ws m, secs now <= t < secs now + duration -> all_demand st d offline simulate (secs now) t ws ->
                  station_allows st d offline (secs now) t m -> addable ar st ws m) ->
  asked_for ar sort_date sort_stack st d now 0 duration requested offline simulate = inl c -> co_unit c = UA ->
  forall t, secs now <= t < secs now + duration ->
  exists o m, look op_start (co_periods c) (t - secs now) = Some o /\ station_allows st d offline (secs now) t m /\
    forall y, t1 (w_cur m) = Some y -> exists x, t1 (op_limit o) = Some x /\ x <= y.
Proof.
  intros ar sdt sst st d now duration requested offline simulate c Hd Hs L Hne Hsane Hsh Hadd H U t Ht.
  destruct (composite_schedule_station_partial _ _ _ _ _ _ _ _ _ _ _ Hd Hs L Hne Hsane Hsh Hadd H) as (_ & _ & F).
  destruct (F t Ht) as (o & x & K & (ws & m & D & A & ->) & E). exists o, m.
  split; [exact K|]. split; [exact A|]. intros y Hy. rewrite U in E.
  assert (exists z, t1 (w_cur (station_rule ar st ws m)) = Some z /\ z <= y) as (z & Ez & Lz).
  { unfold station_rule. eapply strictest_within; [|exact Hy]. cbn; auto. }
  unfold in_unit in E. destruct (expressed_within ar (amps_limit ar st) (usual_phases st) (mains_voltage ar st) _ _ Ez) as (x & Ex & Lx).
  exists x. split; [|lia]. unfold first_phase in E. rewrite <- Ex. congruence.
Qed.
Print Assumptions composite_never_above_station.

(** Both examples above meet the hypotheses, with a maximum in amperes in force: *)
Example composite_never_above_ex : forall v,
  exists m, station_allows (ex_station v) (ex_db v) false 100 160 m /\ t1 (w_cur m) = Some (fl 13).
Proof.
  intros v. set (q := nth 0 (get_valid_profiles_for_evse (ex_station v) (ex_db v) 0 []) (ex_profile 0 PTx UA [] None)).
  exists (wanted_by (Some (q, ex_limit 60 13))). split; [|destruct v; vm_compute; reflexivity].
  exists (Some (q, ex_limit 60 13)). split; [|reflexivity].
  split; [apply counts_0_iff; destruct v; vm_compute; auto|]. split; [destruct v; vm_compute; reflexivity|].
  split; [destruct v; vm_compute; reflexivity|]. intros r Hr Pr _. apply counts_in_db in Hr.
  destruct v; vm_compute in Hr; repeat (destruct Hr as [<-|Hr]; [vm_compute in Pr |- *; discriminate|]); destruct Hr.
Qed.

(** ** The schedules handed to the station's own limits *)

(** One schedule per EVSE and one for the station, each as if asked for with a simulated
    transaction; none when the unit is not supported. *)
Theorem all_composite_schedules : forall ar sort_date sort_stack st d now duration u offline,
  let l := get_all_composite_schedules ar sort_date sort_stack st d now duration u offline in
  (In u (s_units st) ->
   map co_evse l = map Z.of_nat (seq 0 (S (List.length (s_evses st)))) /\
   forall c, In c l ->
     asked_for ar sort_date sort_stack st d now (co_evse c) duration (Some u) offline true = inl c) /\
  (~ In u (s_units st) -> l = []).
Proof.
  intros ar sdt sst st d now duration u offline. cbn zeta. unfold get_all_composite_schedules. split.
  - intros U.
    assert (A : forall i, (i <= List.length (s_evses st))%nat -> exists c,
      asked_for ar sdt sst st d now (Z.of_nat i) duration (Some u) offline true = inl c /\ co_evse c = Z.of_nat i).
    { intros i Hi. pose proof (composite_answer ar sdt sst st d now (Z.of_nat i) duration (Some u) offline true) as C.
      destruct (asked_for ar sdt sst st d now (Z.of_nat i) duration (Some u) offline true) as [c|code].
      - exists c. split; [reflexivity|tauto].
      - exfalso. destruct C as [(_ & C)|(_ & C & _)]; [apply (C u); split; [reflexivity|exact U]|].
        apply C. apply evse_exists_iff. unfold evse_exists. apply andb_true_iff. rewrite !Z.leb_le. lia. }
    assert (B : forall n k, (k + n <= S (List.length (s_evses st)))%nat ->
      let l := flat_map (fun i => match get_composite_schedule_internal ar sdt sst st d now (Z.of_nat i) duration (Some u) offline true with
                         | inl c => [c] | inr _ => [] end) (seq k n) in
      map co_evse l = map Z.of_nat (seq k n) /\
      forall c, In c l -> asked_for ar sdt sst st d now (co_evse c) duration (Some u) offline true = inl c).
    { induction n as [|n IH]; intros k Hk; [split; [reflexivity|intros c []]|]. cbn [seq flat_map]. cbn zeta.
      destruct (A k ltac:(lia)) as (c & Ec & Ek). unfold asked_for in Ec. rewrite Ec.
      destruct (IH (S k) ltac:(lia)) as [I1 I2]. cbn [app map]. split; [rewrite Ek; f_equal; exact I1|].
      intros c' [<-|Hc]; [unfold asked_for; rewrite Ek; exact Ec|apply I2; exact Hc]. }
    apply (B (S (List.length (s_evses st))) 0%nat). lia.
  - intros U. induction (seq 0 (S (List.length (s_evses st)))) as [|i l IH]; [reflexivity|]. cbn [flat_map].
    pose proof (composite_answer ar sdt sst st d now (Z.of_nat i) duration (Some u) offline true) as C. unfold asked_for in C.
    destruct (get_composite_schedule_internal ar sdt sst st d now (Z.of_nat i) duration (Some u) offline true) as [c|code]; [|exact IH].
    exfalso. destruct C as (_ & (E & H) & _). rewrite E in H. contradiction.
Qed.
Print Assumptions all_composite_schedules.

Example all_composite_schedules_ex :
  map co_evse (get_all_composite_schedules ex_ar ex_date ex_stack (ex_station V21) (ex_db V21) (sec 100) 60 UW false) = [0; 1; 2].
Proof. vm_compute. reflexivity. Qed.

(** ** Where the schedules fall short *)

Definition sched_of (v : version) (l : list (profile * Z)) (e : Z) (u : runit) : list operiod :=
  match asked_for ex_ar ex_date ex_stack (ex_station v) (set_all (ex_station v) l) (sec 100) e 600 (Some u) false false with
  | inl c => co_periods c
  | inr _ => []
  end.
Definition told (l : list (profile * Z)) : Prop := List.length (set_all (ex_station V21) l) = List.length l.

(** The limits of L2 and L3 change after a minute, that of L1 does not: the schedule keeps saying
    what it said. *)
Theorem composite_other_phases_refuted :
  let l := [(ex_profile 1 PTx UA [ex_period 0 (some3 (Some 10) (Some 16) (Some 16)) no_tri no_tri None;
                                  ex_period 60 (some3 (Some 10) (Some 6) (Some 6)) no_tri no_tri None] (Some 5), 1)] in
  told l /\ map shown (sched_of V21 l 1 UA) = [(0, some3 (Some 10) (Some 16) (Some 16))].
Proof. split; vm_compute; reflexivity. Qed.

(** Setpoints for discharging lose L2 and L3. *)
Theorem composite_discharging_setpoints_refuted :
  let l := [(ex_profile 1 PTx UW [ex_period 0 no_tri no_tri (some3 (Some (-1000)) (Some (-2000)) (Some (-3000)))
                                    (Some CentralSetpoint)] (Some 5), 1)] in
  told l /\ map op_set (sched_of V21 l 1 UW) = [some3 (Some (-1000)) None None].
Proof. split; vm_compute; reflexivity. Qed.

(** "No discharging" (a discharge limit of 0) is left out of the schedule. *)
Theorem composite_zero_discharge_refuted :
  let l := [(ex_profile 1 PTx UW [ex_period 0 no_tri (some3 (Some 0) None None) (some3 (Some (-1000)) None None)
                                    (Some CentralSetpoint)] (Some 5), 1)] in
  told l /\ map (fun o => (op_dis o, op_set o)) (sched_of V21 l 1 UW) = [(no_tri, some3 (Some (-1000)) None None)].
Proof. split; vm_compute; reflexivity. Qed.

(** A TxProfile that says "idle" does not override the default profile. *)
Theorem composite_idle_refuted :
  let l := [(ex_profile 1 PTxDefault UA [ex_limit 0 16] None, 1);
            (ex_profile 2 PTx UA [ex_period 0 no_tri no_tri no_tri (Some Idle)] (Some 5), 1)] in
  told l /\ map shown (sched_of V21 l 1 UA) = [(0, some3 (Some 16) None None)].
Proof. split; vm_compute; reflexivity. Qed.

(** The schedule of the station knows nothing of the setpoints and discharge limits of its EVSEs. *)
Theorem composite_station_setpoints_refuted :
  let l := [(ex_profile 1 PTx UW [ex_period 0 (some3 (Some 9000) None None) (some3 (Some (-9000)) None None)
                                    (some3 (Some (-3000)) None None) (Some CentralSetpoint)] (Some 5), 1)] in
  told l /\
  map (fun o => (op_dis o, op_set o)) (sched_of V21 l 1 UW) =
    [(some3 (Some (-9000)) None None, some3 (Some (-3000)) None None)] /\
  map (fun o => (op_dis o, op_set o)) (sched_of V21 l 0 UW) = [(no_tri, no_tri)].
Proof. split; [vm_compute; reflexivity|]. split; vm_compute; reflexivity. Qed.

(** Only the first schedule of a profile is looked at, also when it is over. *)
Theorem composite_second_schedule_refuted :
  let sch start dur x := {| sc_unit := UA; sc_periods := [ex_limit 0 x]; sc_soc := false; sc_start := Some (sec start);
                            sc_duration := Some dur; sc_local := None; sc_delay := None |} in
  let p := {| pf_id := 1; pf_stack := 0; pf_purpose := PTx; pf_kind := Absolute; pf_scheds := [sch 100 60 10; sch 160 600 6];
              pf_recur := None; pf_from := None; pf_to := None; pf_tx := Some 5; pf_dynint := false; pf_dyntime := false |} in
  told [(p, 1)] /\ map shown (sched_of V21 [(p, 1)] 1 UA) = [(0, some3 (Some 10) None None); (60, some3 (Some 48) None None)].
Proof. split; vm_compute; reflexivity. Qed.
