(** Proofs about Sc2Model.v: requests, clearing, the stored profiles over time. *)

From Coq Require Import ZArith String List Bool Lia.
From Verif Require Import P2Model P2Spec Sc2Model Sc2Spec Sc2Proofs.
Import ListNotations.
Open Scope string_scope.
Open Scope Z_scope.

Lemma code_named r : r <> Valid -> names (reason_code r) r.
Proof.
  intros N. unfold names, codes.
  destruct r; try congruence; cbn [reason_code];
    (eexists; split; [cbn [In]; repeat (first [left; reflexivity | right])|cbn [In]; repeat (first [left; reflexivity | right])]).
Qed.

Lemma insert_replaced d e p src :
  replaced d (insert_profile d e p src) {| r_evse := e; r_source := src; r_p := p |}.
Proof.
  intros y. unfold insert_profile. rewrite in_app_iff, filter_In, negb_true_iff, Z.eqb_neq. cbn [In r_p].
  intuition.
Qed.

Lemma quot_seconds a n : Z.quot a NS <? n = true <-> (if 0 <=? a then a / 10 ^ 9 < n else - (- a / 10 ^ 9) < n).
Proof.
  rewrite Z.ltb_lt. unfold NS. change (10 ^ 9) with 1000000000. destruct (Z.leb_spec 0 a).
  - rewrite Z.quot_div_nonneg by lia. reflexivity.
  - replace a with (- - a) at 1 by lia. rewrite Z.quot_opp_l by lia. rewrite Z.quot_div_nonneg by lia. reflexivity.
Qed.

Definition counts (st : station) : bool := is_v21 (s_version st) && is_some (s_rate st).

Lemma rate_ok st last p now r last' :
  verify_rate_limit st last p now = (r, last') ->
  (r = Valid /\ ~ too_soon st now (last (pf_purpose p)) \/
   r = ChargingProfileRateLimitExceeded /\ too_soon st now (last (pf_purpose p))) /\
  (forall pu, last' pu = if counts st && purpose_eqb pu (pf_purpose p) then Some now else last pu).
Proof.
  unfold verify_rate_limit, too_soon, counts.
  destruct (s_rate st) as [n|] eqn:R; cbn [is_some].
  2: { intros [= <- <-]. split; [left; split; [reflexivity|intros (_ & n & t & E & _); discriminate]|].
       intros pu. rewrite andb_false_r. reflexivity. }
  destruct (is_v21 (s_version st)) eqn:V.
  2: { intros [= <- <-]. split; [left; split; [reflexivity|]|intros; reflexivity].
       intros (V' & _). apply v21_iff in V'. congruence. }
  apply v21_iff in V. intros E. injection E as E <-. split; [|intros pu; reflexivity].
  destruct (last (pf_purpose p)) as [t|].
  2: { left. split; [congruence|]. intros (_ & n' & t & _ & T & _). discriminate. }
  assert (B : Z.quot (now - t) NS <? n = true <->
              (if t <=? now then (now - t) / 10 ^ 9 < n else - ((t - now) / 10 ^ 9) < n)).
  { rewrite quot_seconds. replace (0 <=? now - t) with (t <=? now).
    2: { destruct (Z.leb_spec t now), (Z.leb_spec 0 (now - t)); lia. }
    replace (- (now - t)) with (t - now) by lia. reflexivity. }
  destruct (Z.quot (now - t) NS <? n).
  - right. split; [congruence|]. split; [exact V|]. exists n, t. split; [reflexivity|]. split; [reflexivity|].
    apply B. reflexivity.
  - left. split; [congruence|]. intros (_ & n' & t' & E1 & E2 & L). injection E1 as <-. injection E2 as <-.
    apply B in L. discriminate.
Qed.

(** Everything conform_validate_and_add_profile can do. *)
Lemma add_cases st s now stored p e source src s' a :
  conform_validate_and_add_profile st s now stored p e source src = (s', a) ->
  (exists r, violates st (db s) src e p r /\ r <> Valid /\ s' = s /\ a = Rejected (reason_code r)) \/
  (fit_for st (db s) src e p /\
   (forall pu, last_update s' pu =
               if counts st && purpose_eqb pu (pf_purpose p) then Some now else last_update s pu) /\
   ((too_soon st now (last_update s (pf_purpose p)) /\ db s' = db s /\ a = Rejected "RateLimitExceeded") \/
    (~ too_soon st now (last_update s (pf_purpose p)) /\ stored = false /\ db s' = db s /\
     a = Rejected "InternalError") \/
    (~ too_soon st now (last_update s (pf_purpose p)) /\ stored = true /\ a = Accepted /\
     exists q, spelled_out st e p q /\ db s' = insert_profile (db s) e q source))).
Proof.
  unfold conform_validate_and_add_profile.
  destruct (conform_and_validate_profile st (db s) p e src) as [r q] eqn:C.
  assert (PQ : pf_purpose q = pf_purpose p).
  { unfold conform_and_validate_profile in C. cbn zeta in C. injection C as _ <-. unfold conform_schedules.
    destruct (get_current_phase_type st (get_evse st e)); reflexivity. }
  destruct (match r with Valid => true | _ => false end) eqn:V.
  2: { intros H. left. exists r. assert (N : r <> Valid) by (intros ->; discriminate V).
       split; [eapply validate_sound; eassumption|]. split; [exact N|]. destruct r; try congruence; injection H as <- <-; auto. }
  destruct r; try discriminate V. clear V. intros H. right.
  assert (F : fit_for st (db s) src e p) by (eapply validate_complete; exact C). split; [exact F|].
  assert (K : known st e).
  { unfold fit_for in F. specialize (F EvseDoesNotExist). cbn in F. apply evse_exists_iff.
    destruct (evse_exists st e) eqn:X; [reflexivity|]. exfalso. apply F. intros K. apply evse_exists_iff in K. congruence. }
  destruct (verify_rate_limit st (last_update s) q now) as [r2 last'] eqn:R.
  destruct (rate_ok _ _ _ _ _ _ R) as [Cs L]. rewrite PQ in *.
  destruct Cs as [[-> T]|[-> T]].
  - destruct stored; injection H as <- <-; (split; [exact L|right]); [right|left].
    + split; [exact T|]. split; [reflexivity|]. split; [reflexivity|]. exists q. split; [|reflexivity].
      eapply spelled_conformed; eassumption.
    + auto.
  - injection H as <- <-. split; [exact L|]. left. auto.
Qed.

Lemma fit_known st d src e p : fit_for st d src e p -> known st e.
Proof.
  intros F. apply evse_exists_iff. destruct (evse_exists st e) eqn:X; [reflexivity|]. exfalso.
  apply (F EvseDoesNotExist). intros K. apply evse_exists_iff in K. congruence.
Qed.

(** ** SetChargingProfile *)

Lemma set_cases st s now stored p e s' rep :
  handle_set_charging_profile_req st s now stored p e = (s', rep) ->
  match rep with
  | CallError code => s_available st = false /\ code = "NotSupported" /\ s' = s
  | Answer Accepted cb =>
      s_available st = true /\ pf_purpose p <> PExternal /\ fit_for st (db s) SetProfile e p /\
      ~ too_soon st now (last_update s (pf_purpose p)) /\ stored = true /\ cb = true /\
      exists q, spelled_out st e p q /\ db s' = insert_profile (db s) e q "CSO"
  | Answer (Rejected code) cb =>
      s_available st = true /\ cb = false /\ db s' = db s /\
      ((pf_purpose p = PExternal /\ code = "InvalidValue" /\ s' = s) \/
       (pf_purpose p <> PExternal /\ s' = s /\
        exists r, violates st (db s) SetProfile e p r /\ names code r) \/
       (pf_purpose p <> PExternal /\ fit_for st (db s) SetProfile e p /\
        too_soon st now (last_update s (pf_purpose p)) /\ code = "RateLimitExceeded") \/
       (pf_purpose p <> PExternal /\ fit_for st (db s) SetProfile e p /\
        ~ too_soon st now (last_update s (pf_purpose p)) /\ stored = false /\ code = "InternalError"))
  end /\
  (forall pu, last_update s' pu = Some now \/ last_update s' pu = last_update s pu) /\
  (forall cb, rep = Answer Accepted cb -> counts st = true -> last_update s' (pf_purpose p) = Some now).
Proof.
  unfold handle_set_charging_profile_req.
  destruct (s_available st); cbn [negb].
  2: { intros [= <- <-]. split; [auto|]. split; [auto|]. intros; discriminate. }
  destruct (purpose_eqb (pf_purpose p) PExternal) eqn:P.
  { apply purpose_iff in P. intros [= <- <-]. split; [|split; [auto|intros; discriminate]].
    split; [reflexivity|]. split; [reflexivity|]. split; [reflexivity|]. left. auto. }
  apply purpose_niff in P.
  destruct (conform_validate_and_add_profile st s now stored p e "CSO" SetProfile) as [s1 a] eqn:C.
  intros [= <- <-].
  destruct (add_cases _ _ _ _ _ _ _ _ _ _ C) as [(r & V & N & -> & ->)|(F & L & H)].
  { split; [|split; [auto|intros; discriminate]].
    split; [reflexivity|]. split; [reflexivity|]. split; [reflexivity|]. right. left.
    split; [exact P|]. split; [reflexivity|]. exists r. split; [exact V|apply code_named; exact N]. }
  assert (LL : forall pu, last_update s1 pu = Some now \/ last_update s1 pu = last_update s pu).
  { intros pu. rewrite L. destruct (counts st && _); auto. }
  destruct H as [(T & D & ->)|[(T & S & D & ->)|(T & S & -> & q & Q & D)]].
  - split; [|split; [exact LL|intros; discriminate]].
    split; [reflexivity|]. split; [reflexivity|]. split; [exact D|]. right. right. left. auto.
  - split; [|split; [exact LL|intros; discriminate]].
    split; [reflexivity|]. split; [reflexivity|]. split; [exact D|]. right. right. right. auto.
  - split; [|split; [exact LL|]].
    + split; [reflexivity|]. split; [exact P|]. split; [exact F|]. split; [exact T|]. split; [exact S|].
      split; [reflexivity|]. exists q. auto.
    + intros cb _ Ct. rewrite L, Ct. cbn [andb]. replace (purpose_eqb (pf_purpose p) (pf_purpose p)) with true; [reflexivity|].
      symmetry. apply purpose_iff. reflexivity.
Qed.

(** ** Invariants of the stored profiles *)

Lemma spelled_fields st e p q : known st e -> spelled_out st e p q ->
  pf_id q = pf_id p /\ pf_stack q = pf_stack p /\ pf_purpose q = pf_purpose p /\ pf_kind q = pf_kind p /\
  pf_tx q = pf_tx p /\ pf_from q = Some (from_of p) /\ pf_to q = Some (to_of p) /\
  (pf_scheds p <> [] -> pf_scheds q <> []) /\
  map sc_duration (pf_scheds q) = map sc_duration (pf_scheds p).
Proof.
  intros K [A B]. assert (D : is_ac st e \/ ~ is_ac st e).
  { pose proof (ac_iff st e K) as X. destruct (get_current_phase_type st (get_evse st e)); [left|right|right];
      rewrite <- X; congruence. }
  destruct D as [D|D]; [rewrite (A D)|rewrite (B D)]; unfold with_scheds; cbn;
    repeat split; auto.
  - destruct (pf_scheds p); cbn; congruence.
  - rewrite map_map. reflexivity.
Qed.

Lemma in_insert d e q src y : In y (insert_profile d e q src) ->
  y = {| r_evse := e; r_source := src; r_p := q |} \/ (In y d /\ pf_id (r_p y) <> pf_id q).
Proof. intros H. apply insert_replaced in H. exact H. Qed.

Lemma nodup_filter_map {A} (f : A -> bool) (g : A -> Z) l : NoDup (map g l) -> NoDup (map g (filter f l)).
Proof.
  induction l as [|x l IH]; intros H; [constructor|]. cbn in H. inversion H as [|? ? N D]; subst. cbn.
  destruct (f x); [|auto]. cbn. constructor; [|auto]. intros X. apply N.
  apply in_map_iff in X as (y & E & Hy). apply filter_In in Hy as [Hy _]. rewrite <- E. apply in_map. exact Hy.
Qed.

Lemma nodup_snoc (l : list Z) x : NoDup l -> ~ In x l -> NoDup (l ++ [x])%list.
Proof.
  induction l as [|y l IH]; intros D N; cbn.
  - constructor; [intros []|constructor].
  - inversion D as [|? ? Ny Dy]; subst. constructor.
    + rewrite in_app_iff. intros [H|[H|[]]]; [exact (Ny H)|]. subst. apply N. left; reflexivity.
    + apply IH; [exact Dy|]. intros H. apply N. right; exact H.
Qed.

Lemma nodup_insert d e q src :
  NoDup (map (fun r => pf_id (r_p r)) d) -> NoDup (map (fun r => pf_id (r_p r)) (insert_profile d e q src)).
Proof.
  intros H. unfold insert_profile. rewrite map_app. cbn. apply nodup_snoc; [apply nodup_filter_map; exact H|].
  intros X. apply in_map_iff in X as (y & E & Hy). apply filter_In in Hy as [_ B].
  rewrite negb_true_iff, Z.eqb_neq in B. congruence.
Qed.

Lemma conflict_free_filter f d : conflict_free d -> conflict_free (filter f d).
Proof.
  intros [N C]. split; [apply nodup_filter_map; exact N|]. intros x y Hx Hy.
  apply filter_In in Hx as [Hx _]. apply filter_In in Hy as [Hy _]. apply C; assumption.
Qed.

Lemma conflict_free_insert st d src e p q source :
  conflict_free d -> fit_for st d src e p -> spelled_out st e p q ->
  conflict_free (insert_profile d e q source).
Proof.
  intros [N C] F Q. pose proof (fit_known _ _ _ _ _ F) as K.
  destruct (spelled_fields _ _ _ _ K Q) as (I1 & I2 & I3 & I4 & I5 & I6 & I7 & I8).
  split; [apply nodup_insert; exact N|].
  (* the new row against an old one *)
  assert (New : forall y, In y d -> pf_id (r_p y) <> pf_id q -> pf_stack (r_p y) = pf_stack q ->
                pf_purpose (r_p y) = pf_purpose q ->
                (pf_purpose q <> PTx -> r_evse y = e -> forall fy ty, pf_from (r_p y) = Some fy -> pf_to (r_p y) = Some ty ->
                 to_of p < fy \/ ty < from_of p) /\
                (pf_purpose q = PTxDefault -> (r_evse y = 0 <-> e = 0))).
  { intros y Hy Iy Sy Py. split.
    - intros NT Ey fy ty Fy Ty. destruct (Z_lt_le_dec (to_of p) fy) as [L|L]; [left; exact L|].
      destruct (Z_lt_le_dec ty (from_of p)) as [L'|L']; [right; exact L'|]. exfalso.
      apply (F DuplicateProfileValidityPeriod). split; [congruence|]. exists y. split; [exact Hy|].
      split; [congruence|]. split; [exact Ey|]. split; [congruence|]. split; [congruence|]. split.
      + exists ty. auto.
      + intros f Ef. assert (f = fy) by congruence. subst. exact L.
    - intros PT. destruct (Z.eq_dec (r_evse y) 0) as [Z1|Z1], (Z.eq_dec e 0) as [Z2|Z2]; try tauto; exfalso;
        apply (F DuplicateTxDefaultProfileFound); (split; [congruence|]); exists y;
        (split; [assumption|]; split; [congruence|]; split; [congruence|]; split; [congruence|]);
        split; intros; first [assumption|contradiction]. }
  intros x y Hx Hy Ne Es Ep. apply in_insert in Hx, Hy.
  destruct Hx as [->|[Hx Ix]], Hy as [->|[Hy Iy]].
  - congruence.
  - cbn [r_p r_evse] in *. destruct (New y Hy Iy (eq_sym Es) (eq_sym Ep)) as [V T]. split.
    + intros NT Ee fx tx fy ty Fx Tx Fy Ty. rewrite I6 in Fx. rewrite I7 in Tx. injection Fx as <-. injection Tx as <-.
      apply V; auto.
    + intros PT. specialize (T PT). tauto.
  - cbn [r_p r_evse] in *. destruct (New x Hx Ix Es Ep) as [V T]. rewrite Ep. split.
    + intros NT Ee fx tx fy ty Fx Tx Fy Ty. rewrite I6 in Fy. rewrite I7 in Ty. injection Fy as <-. injection Ty as <-.
      specialize (V NT Ee fx tx Fx Tx). tauto.
    + intros PT. specialize (T PT). tauto.
  - apply C; assumption.
Qed.

Lemma well_placed_new st d src e p q :
  fit_for st d src e p -> spelled_out st e p q -> pf_purpose p <> PExternal ->
  well_placed {| r_evse := e; r_source := "CSO"; r_p := q |}.
Proof.
  intros F Q NE. pose proof (fit_known _ _ _ _ _ F) as K.
  destruct (spelled_fields _ _ _ _ K Q) as (I1 & I2 & I3 & I4 & I5 & I6 & I7 & I8 & I9).
  assert (K0 : 0 <= e) by (destruct K as [->|(x & H & _)]; lia).
  unfold well_placed. cbn [r_p r_evse r_source]. rewrite I6, I7. split; [|repeat split; try congruence].
  2: { apply I8. intros E. apply (F ChargingProfileEmptyChargingSchedules). exact E. }
  rewrite I3. destruct (pf_purpose p) eqn:P; try exact K0.
  - congruence.
  - split.
    + destruct (Z_lt_le_dec 0 e) as [L|L]; [|lia]. exfalso.
      apply (F ChargingStationMaxProfileEvseIdGreaterThanZero). split; assumption.
    + rewrite I4. intros E. apply (F ChargingStationMaxProfileCannotBeRelative). split; assumption.
  - destruct (Z_lt_le_dec 0 e) as [L|L]; [exact L|]. exfalso.
    apply (F TxProfileEvseIdNotGreaterThanZero). split; assumption.
  - split; [exact K0|].
    assert (A : Forall (fun s => sc_duration s = None) (pf_scheds p)).
    { apply Forall_forall. intros s Hs. destruct (sc_duration s) eqn:D; [|reflexivity]. exfalso.
      apply (F ChargingSchedulePriorityExtranousDuration). split; [exact P|]. exists s. split; [exact Hs|]. congruence. }
    revert A. generalize (pf_scheds p) I9. clear. intros l. revert l. induction (pf_scheds q) as [|a l IH]; intros l' E A; [constructor|].
    destruct l' as [|b l']; [discriminate|]. cbn in E. inversion A; subst. injection E as E1 E2. constructor; [congruence|].
    eapply IH; eassumption.
  - apply (F InvalidProfileType). exact P.
Qed.

Definition sound_store (d : list row) : Prop := conflict_free d /\ Forall well_placed d.

Lemma sound_filter f d : sound_store d -> sound_store (filter f d).
Proof.
  intros [C W]. split; [apply conflict_free_filter; exact C|]. apply Forall_forall. intros x Hx.
  apply filter_In in Hx as [Hx _]. revert x Hx. apply Forall_forall. exact W.
Qed.

Lemma sound_insert st d src e p q :
  sound_store d -> fit_for st d src e p -> spelled_out st e p q -> pf_purpose p <> PExternal ->
  sound_store (insert_profile d e q "CSO").
Proof.
  intros [C W] F Q NE. split; [eapply conflict_free_insert; eassumption|].
  apply Forall_forall. intros x Hx. apply in_insert in Hx as [->|[Hx _]].
  - eapply well_placed_new; eassumption.
  - revert x Hx. apply Forall_forall. exact W.
Qed.

Lemma sound_set st s now stored p e s' rep :
  sound_store (db s) -> handle_set_charging_profile_req st s now stored p e = (s', rep) -> sound_store (db s').
Proof.
  intros S H. destruct (set_cases _ _ _ _ _ _ _ _ H) as [C _]. destruct rep as [c|[|c] cb].
  - destruct C as (_ & _ & ->). exact S.
  - destruct C as (_ & NE & F & _ & _ & _ & q & Q & ->). eapply sound_insert; eassumption.
  - destruct C as (_ & _ & -> & _). exact S.
Qed.

Lemma remote_cases st s now stored eid reserved starts p s' rem cb rep :
  handle_remote_start_transaction_request st s now stored eid reserved starts p = (s', rem, cb, rep) ->
  rem = cb /\
  match eid with
  | None => rep = RemoteAnswer false None /\ cb = false /\ s' = s
  | Some e =>
      match get_evse st e with
      | None => rep = RemoteError /\ cb = false /\ s' = s
      | Some ev =>
          cb = is_evse_connector_available ev && negb reserved /\
          exists code, rep = RemoteAnswer (cb && starts) code /\
          ((code = None /\ s' = s /\
            (p = None \/ s_enabled st = false \/ exists q, p = Some q /\ pf_purpose q <> PTx)) \/
           (exists q a, p = Some q /\ s_enabled st = true /\ pf_purpose q = PTx /\
              conform_validate_and_add_profile st s now stored q e "CSO" RemoteStart = (s', a) /\
              code = match a with Accepted => None | Rejected c => Some c end))
      end
  end.
Proof.
  unfold handle_remote_start_transaction_request. destruct eid as [e|].
  2: { intros [= <- <- <- <-]. auto. }
  destruct (get_evse st e) as [ev|]; [|intros [= <- <- <- <-]; auto].
  destruct p as [q|].
  2: { intros [= <- <- <- <-]. split; [reflexivity|]. split; [reflexivity|]. eexists. split; [reflexivity|]. left. auto. }
  destruct (s_enabled st) eqn:En; cbn [andb].
  2: { intros [= <- <- <- <-]. split; [reflexivity|]. split; [reflexivity|]. eexists. split; [reflexivity|]. left. auto. }
  destruct (purpose_eqb (pf_purpose q) PTx) eqn:P.
  2: { intros [= <- <- <- <-]. split; [reflexivity|]. split; [reflexivity|]. eexists. split; [reflexivity|]. left.
       apply purpose_niff in P. split; [reflexivity|]. split; [reflexivity|]. right. right. exists q. auto. }
  apply purpose_iff in P.
  destruct (conform_validate_and_add_profile st s now stored q e "CSO" RemoteStart) as [s1 a] eqn:C.
  intros H. split; [destruct a; injection H as <- <- <- <-; reflexivity|].
  split; [destruct a; injection H as <- <- <- <-; reflexivity|].
  destruct a as [|c]; injection H as <- <- <- <-; (eexists; split; [reflexivity|]); right; exists q; eexists;
    (split; [reflexivity|]; split; [reflexivity|]; split; [exact P|]; split; [exact C|]; reflexivity).
Qed.

Lemma sound_remote st s now stored eid reserved starts p s' rem cb rep :
  sound_store (db s) ->
  handle_remote_start_transaction_request st s now stored eid reserved starts p = (s', rem, cb, rep) ->
  sound_store (db s').
Proof.
  intros S H. destruct (remote_cases _ _ _ _ _ _ _ _ _ _ _ _ H) as [_ C]. destruct eid as [e|].
  2: { destruct C as (_ & _ & ->). exact S. }
  destruct (get_evse st e); [|destruct C as (_ & _ & ->); exact S].
  destruct C as (_ & code & _ & [(_ & -> & _)|(q & a & _ & _ & P & A & _)]); [exact S|].
  destruct (add_cases _ _ _ _ _ _ _ _ _ _ A) as [(r & _ & _ & -> & _)|(F & _ & X)]; [exact S|].
  destruct X as [(_ & -> & _)|[(_ & _ & -> & _)|(_ & _ & _ & z & Q & ->)]]; [exact S|exact S|].
  eapply sound_insert; try eassumption. congruence.
Qed.

(** ** Clearing *)

Definition by_filter (d d' : list row) := exists f, d' = filter f d.

Lemma filter_all {A} (l : list A) : filter (fun _ => true) l = l.
Proof. induction l; cbn; congruence. Qed.

Lemma filter_none {A} (l : list A) : filter (fun _ => false) l = [].
Proof. induction l; cbn; congruence. Qed.

Lemma clear_by_filter d id c d' b :
  clear_charging_profiles_matching_criteria d id c = (d', b) -> by_filter d d'.
Proof.
  unfold clear_charging_profiles_matching_criteria. cbn zeta. destruct id.
  { intros [= <- _]. eexists; reflexivity. }
  destruct c as [c|].
  - destruct (_ || _); intros [= <- _]; [eexists; reflexivity|exists (fun _ => true); rewrite filter_all; reflexivity].
  - intros [= <- _]. exists (fun _ => false). rewrite filter_none. reflexivity.
Qed.

Lemma clear_req_by_filter s id c s' st code cb :
  handle_clear_charging_profile_req s id c = (s', st, code, cb) -> by_filter (db s) (db s').
Proof.
  unfold handle_clear_charging_profile_req.
  destruct (clear_charging_profiles_matching_criteria (db s) id c) as [d b] eqn:E.
  pose proof (clear_by_filter _ _ _ _ _ E) as B.
  assert (B0 : by_filter (db s) (db s)) by (exists (fun _ => true); rewrite filter_all; reflexivity).
  destruct c as [c|]; [destruct (match cc_purpose c with Some PExternal => true | _ => false end)|];
    intros [= <- <- <- <-]; cbn [db]; assumption.
Qed.

Lemma opt_eq_iff o x : opt_eq o x = true <-> (forall y, o = Some y -> x = y).
Proof.
  destruct o as [y|]; cbn.
  - rewrite Z.eqb_eq. split; [intros -> z E; congruence|intros H; symmetry; apply H; reflexivity].
  - split; [discriminate|reflexivity].
Qed.
Lemma opt_purpose_iff o x : opt_purpose o x = true <-> (forall y, o = Some y -> x = y).
Proof.
  destruct o as [y|]; cbn.
  - rewrite purpose_iff. split; [intros -> z E; congruence|intros H; symmetry; apply H; reflexivity].
  - split; [discriminate|reflexivity].
Qed.

Lemma removed_filter (P : row -> Prop) f d :
  (forall r, f r = true <-> P r) -> removed P d (filter (fun r => negb (f r)) d).
Proof.
  intros H. split; [|eexists; reflexivity]. intros r. rewrite filter_In, negb_true_iff, <- H.
  destruct (f r); intuition congruence.
Qed.

(** ** At boot *)

Lemma boot_by_filter st rows d : by_filter d (clear_invalid_charging_profiles st d rows).
Proof.
  unfold clear_invalid_charging_profiles. revert d. induction rows as [|r rows IH]; intros d; cbn [fold_left].
  - exists (fun _ => true). rewrite filter_all. reflexivity.
  - match goal with |- by_filter d (fold_left ?g rows ?d') => destruct (IH d') as [f E]; rewrite E end.
    destruct (fst _); [exists f; reflexivity|..];
      (eexists (fun x => negb (pf_id (r_p x) =? pf_id (r_p r)) && f x);
       clear; induction d as [|x d IHd]; cbn; [reflexivity|];
       destruct (pf_id (r_p x) =? pf_id (r_p r)); cbn; [exact IHd|]; destruct (f x); rewrite IHd; reflexivity).
Qed.

Lemma sound_by_filter d d' : by_filter d d' -> sound_store d -> sound_store d'.
Proof. intros [f ->]. apply sound_filter. Qed.

Lemma step_sound st now s o s' out : sound_store (db s) -> sc_step st now s o = (s', out) -> sound_store (db s').
Proof.
  intros S. destruct o; cbn [sc_step].
  - destruct (handle_set_charging_profile_req st s now stored p evse_id) as [s1 r] eqn:H. intros [= <- _].
    eapply sound_set; eassumption.
  - destruct (handle_remote_start_transaction_request st s now stored evse_id reserved starts p) as [[[s1 a] b] r] eqn:H.
    intros [= <- _]. eapply sound_remote; eassumption.
  - destruct (handle_clear_charging_profile_req s id c) as [[[s1 a] b] r] eqn:H. intros [= <- _].
    eapply sound_by_filter; [eapply clear_req_by_filter; exact H|exact S].
  - intros [= <- _]. cbn [db]. apply sound_filter. exact S.
  - intros [= <- _]. cbn [db]. eapply sound_by_filter; [apply boot_by_filter|exact S].
Qed.

Lemma run_sound l : forall s s' outs, sound_store (db s) -> sc_run s l = (s', outs) -> sound_store (db s').
Proof.
  induction l as [|[[st now] o] l IH]; intros s s' outs S H; cbn [sc_run] in H; [injection H as <- _; exact S|].
  destruct (sc_step st now s o) as [s1 out] eqn:E1. destruct (sc_run s1 l) as [s2 outs'] eqn:E2.
  injection H as <- _. eapply IH; [|exact E2]. eapply step_sound; eassumption.
Qed.

Lemma sound_empty : sound_store [].
Proof. split; [split; [constructor|intros x y []]|constructor]. Qed.
