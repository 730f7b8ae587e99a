(** The reports of an EVSE over any history, continued. *)
From Coq Require Import String Ascii ZArith QArith List Bool Lia Permutation Sorted.
From Verif Require Import MvModel MvEvse MvSpec MvSpec2 MvProofs MvProofs2 MvProofs3.
Import ListNotations.
Local Open Scope string_scope.
Local Open Scope list_scope.
Local Open Scope Z_scope.

Definition d0 := MV [] 0 None.
(** What the past says of the state. *)
Definition knows (p : past) (s : state) : Prop :=
  since (p_upd p) (e_upd (s_evse s)) /\ since (p_end p) (e_end (s_evse s)) /\ since (p_zero p) (s_zero s) /\
  e_meter (s_evse s) = p_last p /\
  e_tx (s_evse s) = match p_tx p with Some (id, r) => Some (Tx id r (p_watch p)) | None => None end /\
  (p_tx p = None -> p_watch p = false) /\
  (p_upd p <> [] -> last (p_upd p) d0 = p_last p) /\ (p_end p <> [] -> last (p_end p) d0 = p_last p) /\
  s_db s = tables (p_ops p).
Lemma knows_boot : forall t, knows (Past [] [] [] (MV [] t None) None false []) (boot t).
Proof.
  intros t. assert (X : since [] (Avg (empty_value t) [])) by exact (since_nil (Avg (empty_value t) [])).
  unfold knows, boot. cbn. split; [exact X|]. split; [exact X|]. split; [exact X|]. split; [reflexivity|]. split; [reflexivity|]. split; [reflexivity|].
  split; [intros N; elim N; reflexivity|]. split; [intros N; elim N; reflexivity|reflexivity].
Qed.
Lemma clocked_eq : forall s, with_context Sample_Clock s = clocked s.
Proof. reflexivity. Qed.
(** The value the clock-aligned timers make. *)
Lemma stamp_ok : forall round now i m latest, m_time m = m_time latest ->
  stamped round now i latest (m_time (if round then match align_timestamp now i with Some t => with_time t m | None => m end else m)).
Proof.
  intros round now i m latest T. unfold stamped. destruct round; [|exact T]. intros I. destruct (align_total now i I) as (r&R).
  rewrite R. cbn [m_time with_time]. destruct (midnight_exists now) as (mn&M). exists mn. destruct (align_close now mn i r M I R). auto.
Qed.
Lemma stamp_samples : forall (round : bool) now i m,
  m_samples (if round then match align_timestamp now i with Some t => with_time t m | None => m end else m) = m_samples m /\
  m_custom (if round then match align_timestamp now i with Some t => with_time t m | None => m end else m) = m_custom m.
Proof. intros [|] now i m; [destruct (align_timestamp now i)|]; split; reflexivity. Qed.
Lemma since_last : forall h a latest, since h a -> (h <> [] -> last h d0 = latest) -> m_samples (a_last (retrieve a)) <> [] ->
  m_time (a_last (retrieve a)) = m_time latest /\ m_custom (a_last (retrieve a)) = m_custom latest.
Proof.
  intros h a1 latest (a&[S _]&A) L. replace (retrieve a1) with (retrieve a) by (destruct A as [-> | ->]; [reflexivity|symmetry; apply retrieve_twice]).
  intros N. destruct (retrieve_meta a) as [-> ->]. destruct h as [|x h].
  - elim N. unfold retrieve. cbn [a_last with_samples m_samples]. rewrite S. reflexivity.
  - rewrite S. rewrite <- (L ltac:(discriminate)). auto.
Qed.
Lemma aligned_value_ok : forall h a e round now i, since h a -> (h <> [] -> last h d0 = e_meter e) ->
  aligned_sample round now i h (e_meter e) (aligned_value a e round now i).
Proof.
  intros h a e round now i S L. unfold aligned_sample, aligned_value. pose proof (retrieve_report h a S) as R. pose proof (since_last h a (e_meter e) S L) as SL.
  set (m := a_last (retrieve a)) in *.
  set (b := match m_samples m with [] => e_meter e | _ => m end).
  assert (B : m_time b = m_time (e_meter e) /\ m_custom b = m_custom (e_meter e) /\ averaged_or_latest h (e_meter e) (m_samples b)).
  { unfold b, averaged_or_latest. destruct (m_samples m) eqn:M; [auto|]. destruct (SL ltac:(discriminate)) as [-> ->]. rewrite M. split; [reflexivity|].
    split; [reflexivity|]. left. split; [exact R|discriminate]. }
  destruct B as (B1&B2&B3). exists (m_samples b). split; [exact B3|]. cbv zeta.
  destruct (stamp_samples round now i (set_context b Sample_Clock)) as [-> ->]. split; [reflexivity|]. split; [|exact B2].
  apply stamp_ok. exact B1.
Qed.
Lemma told_ok : forall c v id x, context_of v = Some x ->
  meter_callback c v id = if (x =? Sample_Clock) || (x =? Sample_Periodic) then
    match filtered (if x =? Sample_Clock then c_aligned c else c_updated c) true (m_samples v) with
    | [] => [] | l => [Event Updated id [MV l (m_time v) (m_custom v)]] end else [].
Proof.
  intros c v id x C. unfold context_of in C. unfold meter_callback. destruct (m_samples v) as [|s q] eqn:S; [discriminate C|]. rewrite C.
  destruct (_ || _); [|reflexivity]. unfold measurands_applied, with_samples. cbn [m_samples]. rewrite applied_filtered, S. destruct (filtered _ _ _); reflexivity.
Qed.
Lemma told_case : forall k id l v, told k id l v match l with [] => [] | _ => [Event k id [MV l (m_time v) (m_custom v)]] end.
Proof. intros k id [|s l] v; [left; auto|right; split; [discriminate|reflexivity]]. Qed.
Lemma callback_clock : forall c v id, Forall (fun s => s_context s = Some Sample_Clock) (m_samples v) ->
  told Updated id (filtered (c_aligned c) true (m_samples v)) v (meter_callback c v id).
Proof.
  intros c v id F. destruct (m_samples v) as [|s q] eqn:S.
  - unfold meter_callback. rewrite S. left. auto.
  - inversion F; subst. rewrite (told_ok c v id Sample_Clock) by (unfold context_of; rewrite S; assumption). rewrite Z.eqb_refl, S.
    pose proof (told_case Updated id (filtered (c_aligned c) true (s :: q)) v) as X. cbn [orb]. destruct (filtered (c_aligned c) true (s :: q)); exact X.
Qed.
Lemma clocked_all : forall l, Forall (fun s => s_context s = Some Sample_Clock) (map clocked l).
Proof. intros l. apply Forall_forall. intros s I. apply in_map_iff in I. destruct I as (x&<-&_). reflexivity. Qed.
Lemma filtered_clocked : forall ms k l, map clocked (filtered ms k l) = filtered ms k (map clocked l).
Proof.
  intros ms k l. unfold filtered. induction l as [|s q IH]; [reflexivity|]. cbn [map filter]. assert (W : wanted ms (clocked s) = wanted ms s) by reflexivity.
  rewrite W. destruct (wanted ms s); [|exact IH]. cbn [map]. rewrite IH. reflexivity.
Qed.
(** Idle values. *)
Lemma idle_ok : forall c a now h zero latest, since h a -> (h <> [] -> last h d0 = latest) -> exists l, report h l /\
  let f := filtered (c_aligned c) true (map clocked l) in
  (f = [] /\ send_values zero (idle_value c a now) = []) \/
  (f <> [] /\ exists t, stamped (c_round c) now (c_interval c) latest t /\ send_values zero (idle_value c a now) = [Values zero [MV f t (m_custom latest)]]).
Proof.
  intros c a now h zero latest S L. exists (m_samples (a_last (retrieve a))). split; [apply retrieve_report; exact S|]. cbv zeta.
  pose proof (since_last h a latest S L) as SL. set (m := a_last (retrieve a)) in *. unfold send_values, idle_value. fold m.
  set (b := set_context (measurands_applied m (c_aligned c) true) Sample_Clock). cbv zeta.
  assert (B : m_samples b = filtered (c_aligned c) true (map clocked (m_samples m))).
  { unfold b, set_context, measurands_applied, with_samples. cbn [m_samples]. rewrite applied_filtered. apply filtered_clocked. }
  destruct (stamp_samples (c_round c) now (c_interval c) b) as [S1 S2]. set (v := if c_round c then _ else b) in *. rewrite S1, B.
  destruct (nil_dec _ (filtered (c_aligned c) true (map clocked (m_samples m)))) as [N|N]; [left; rewrite N; auto|]. right. split; [exact N|].
  assert (NE : m_samples m <> []) by (intros E; rewrite E in N; apply N; reflexivity). destruct (SL NE) as [T K].
  exists (m_time v). split; [apply stamp_ok; exact T|]. assert (V : v = MV (filtered (c_aligned c) true (map clocked (m_samples m))) (m_time v) (m_custom latest)).
  { destruct v; cbn in *. rewrite <- B, <- S1. f_equal. rewrite S2. exact K. }
  destruct (filtered (c_aligned c) true (map clocked (m_samples m))); [elim N; reflexivity|]. rewrite V at 1. reflexivity.
Qed.
(** Watching the energy of a transaction. *)
Definition same_but_tx (e e' : evse) : Prop := e' = set_tx (e_tx e') e.
Lemma check_max_ok : forall c e id r w, e_tx e = Some (Tx id r w) ->
  let '(e', x, threw) := check_max c e in
  same_but_tx e e' /\
  (In Pause x <-> w = true /\ exists q0 q limit n, r = Some q0 /\ register (e_meter e) q /\ c_max c = Some limit /\ nearest (q - q0) n /\ limit <= n) /\
  (exists w', e_tx e' = Some (Tx id r w') /\ (w' = true <-> w = true /\ ~ In Pause x)) /\ (threw = false -> ~ In Threw x) /\ ~ In Undefined x /\
  (forall id0 l0 k0, ~ In (Event k0 id0 l0) x) /\ (forall z0 l0, ~ In (Values z0 l0) x).
Proof.
  intros c e id r w T. unfold check_max. rewrite T. cbn [t_check t_start t_id].
  assert (NO : forall thr, same_but_tx e e /\
    ((False <-> w = true /\ exists q0 q limit n, r = Some q0 /\ register (e_meter e) q /\ c_max c = Some limit /\ nearest (q - q0) n /\ limit <= n) ->
    (In Pause [] <-> w = true /\ exists q0 q limit n, r = Some q0 /\ register (e_meter e) q /\ c_max c = Some limit /\ nearest (q - q0) n /\ limit <= n) /\
    (exists w', e_tx e = Some (Tx id r w') /\ (w' = true <-> w = true /\ ~ In Pause [])) /\ (thr = false -> ~ In Threw []) /\ ~ In Undefined [] /\
    (forall id0 l0 k0, ~ In (Event k0 id0 l0) []) /\ (forall z0 l0, ~ In (Values z0 l0) []))).
  { intros thr. split; [unfold same_but_tx; destruct e; reflexivity|]. intros H. split; [exact H|]. split; [exists w; split; [exact T|cbn; tauto]|]. cbn. tauto. }
  pose proof (active_import_spec (e_meter e)) as A.
  destruct (c_max c) as [limit|].
  2:{ destruct (NO false) as [N1 N2]. split; [exact N1|]. apply N2. split; [contradiction|]. intros (_&q0&q&l&n&_&_&X&_). discriminate X. }
  destruct w.
  2:{ destruct (NO false) as [N1 N2]. split; [exact N1|]. apply N2. split; [contradiction|]. intros (X&_). discriminate X. }
  destruct (active_import (e_meter e)) as [|q|].
  - destruct (NO false) as [N1 N2]. split; [exact N1|]. apply N2. split; [contradiction|]. intros (_&q0&q&l&n&_&X&_). exact (A (register_has _ _ X)).
  - destruct r as [q0|].
    2:{ destruct (NO false) as [N1 N2]. split; [exact N1|]. apply N2. split; [contradiction|]. intros (_&q0&q1&l&n&X&_). discriminate X. }
    pose proof (lround_nearest (q - q0)%Q) as LN. destruct (limit <=? lround (q - q0)) eqn:LE.
    + split; [reflexivity|]. split.
      { split; [intros _|intros _; left; reflexivity]. split; [reflexivity|]. exists q0, q, limit, (lround (q - q0)). split; [reflexivity|].
        split; [exact A|]. split; [reflexivity|]. split; [exact LN|lia]. }
      split; [exists false; split; [reflexivity|]; split; [discriminate|intros (_&X); elim X; left; reflexivity]|].
      repeat split; intros; cbn; intuition discriminate.
    + destruct (NO false) as [N1 N2]. split; [exact N1|]. apply N2. split; [contradiction|]. intros (_&q0'&q'&l&n&X1&X2&X3&X4&X5).
      injection X1 as <-. injection X3 as <-. assert (n = lround (q - q0)); [|lia].
      apply (nearest_unique (q - q0)); [|exact LN]. apply (nearest_eq (q' - q0)); [|exact X4]. rewrite (register_unique _ _ _ A X2). reflexivity.
  - split; [unfold same_but_tx; destruct e; reflexivity|]. split; [|split; [|split; [discriminate|]]].
    + split; [cbn; intuition discriminate|]. intros (_&q0&q&l&n&_&X&_). elim (proj2 A q X).
    + exists true. split; [exact T|]. split; [intros _|reflexivity]. split; [reflexivity|]. cbn. intuition discriminate.
    + repeat split; intros; cbn; intuition discriminate.
Qed.
Definition same_metering (e e' : evse) : Prop := e_meter e' = e_meter e /\ e_upd e' = e_upd e /\ e_end e' = e_end e /\ e_tx e' = e_tx e.
Lemma same_metering_refl : forall e, same_metering e e.
Proof. intros e. repeat split. Qed.
Lemma pricing_ok : forall m e, let '(e', x) := pricing m e in same_metering e e' /\ ~ In Pause x.
Proof.
  intros m e. unfold pricing.
  assert (E : match energy_trigger m e with Some (e1, o1, _) => same_metering e e1 /\ ~ In Pause o1 | None => True end).
  { unfold energy_trigger. destruct (e_energy e) as [k|]; [|split; [repeat split|intros []]]. destruct (negb (e_send e)); [split; [repeat split|intros []]|].
    destruct (active_import (e_meter e)); [split; [repeat split|intros []]| |exact Logic.I]. destruct (Qle_bool _ _); [|split; [repeat split|intros []]].
    cbv zeta. destruct (m_samples _); split; try (repeat split); cbn; intuition discriminate. }
  destruct (energy_trigger m e) as [[[e1 o1] sent]|]; [|split; [repeat split|cbn; intuition discriminate]].
  assert (P : let '(e2, o2) := power_trigger m sent e1 in same_metering e1 e2 /\ ~ In Pause o2).
  { unfold power_trigger. destruct (e_power e1), (total_power m); try (split; [repeat split|intros []]).
    destruct (negb (e_send e1)); [split; [repeat split|intros []]|]. cbv zeta.
    destruct (e_last e1); [destruct (_ || _)|]; (split; [repeat split|destruct sent; cbn; intuition discriminate]). }
  destruct (power_trigger m sent e1) as [e2 o2]. destruct E as ((E1&E2&E3&E4)&E5), P as ((P1&P2&P3&P4)&P5).
  split; [unfold same_metering; repeat split; congruence|]. rewrite in_app_iff. tauto.
Qed.

(** ** One call *)
Definition goes (c : config) (o : op) (p : past) (s' : state) (x : list out) : Prop :=
  exists p', noted c o x p p' /\ says c o p p' x /\ knows p' s'.
Lemma snoc_not_nil : forall A (l : list A) x, l ++ [x] <> [].
Proof. intros A l x E. apply app_eq_nil in E. destruct E as [_ E]. discriminate E. Qed.
Lemma go_meter : forall c p s m, knows p s -> let '(s', x) := step c (Meter m) s in goes c (Meter m) p s' x.
Proof.
  intros c p s m (K1&K2&K3&K4&K5&K6&K7&K8&K9). cbn [step]. unfold on_meter.
  set (e1 := set_end (set_values m (e_end (s_evse s))) (set_upd (set_values m (e_upd (s_evse s))) (set_meter m (s_evse s)))).
  assert (T1 : e_tx e1 = match p_tx p with Some (id, r) => Some (Tx id r (p_watch p)) | None => None end) by exact K5.
  assert (M1 : e_meter e1 = m) by reflexivity. assert (U1 : since (p_upd p ++ [m]) (e_upd e1)) by (apply since_set; exact K1).
  assert (E1 : since (p_end p ++ [m]) (e_end e1)) by (apply since_set; exact K2). clearbody e1.
  assert (G : forall e x w', e_meter e = m -> e_upd e = e_upd e1 -> e_end e = e_end e1 ->
    e_tx e = match p_tx p with Some (id, r) => Some (Tx id r w') | None => None end ->
    (p_tx p = None -> w' = false) -> (w' = true -> p_watch p = true) ->
    (In Pause x <-> p_watch p = true /\ watched c p m) -> (w' = true <-> p_watch p = true /\ ~ In Pause x) ->
    goes c (Meter m) p (St e (s_zero s) (s_db s)) x).
  { intros e x w' G1 G2 G3 G4 G5 G6 G7 G8. eexists. split; [apply (NMeter c m x p w'); exact G6|]. split; [split; [exact G7|exact G8]|].
    unfold knows. cbn [p_upd p_end p_zero p_last p_tx p_watch p_ops s_evse s_zero s_db]. rewrite G1, G2, G3, G4. rewrite !last_last.
    split; [exact U1|]. split; [exact E1|]. split; [exact K3|]. repeat split; auto. }
  destruct (p_tx p) as [[id r]|] eqn:TX.
  - pose proof (check_max_ok c e1 id r (p_watch p) T1) as C. destruct (check_max c e1) as [[e2 x] threw].
    destruct C as (C1&C2&(w'&C3&C4)&_&_&_&_). rewrite M1 in C2.
    assert (W : In Pause x <-> p_watch p = true /\ watched c p m).
    { rewrite C2. unfold watched. rewrite TX. split.
      - intros (A&q0&q&l&n&->&B). split; [exact A|]. exists id, q0, q, l, n. split; [reflexivity|exact B].
      - intros (A&id'&q0&q&l&n&B&D). split; [exact A|]. exists q0, q, l, n. split; [congruence|exact D]. }
    assert (E2 : e_meter e2 = m /\ e_upd e2 = e_upd e1 /\ e_end e2 = e_end e1) by (rewrite C1; cbn; auto). destruct E2 as (E2&E3&E4).
    destruct threw.
    + apply (G e2 x w'); auto; [intros X; discriminate X|intros X; apply C4 in X; tauto].
    + pose proof (pricing_ok m e2) as P. destruct (pricing m e2) as [e3 x']. destruct P as ((P1&P2&P3&P4)&P5).
      assert (X : In Pause (x ++ x') <-> In Pause x) by (rewrite in_app_iff; tauto).
      apply (G e3 (x ++ x') w'); [congruence|congruence|congruence|congruence|intros Y; discriminate Y|intros Y; apply C4 in Y; tauto|rewrite X; exact W|rewrite X; exact C4].
  - unfold check_max. rewrite T1. pose proof (pricing_ok m e1) as P. destruct (pricing m e1) as [e3 x']. destruct P as ((P1&P2&P3&P4)&P5).
    cbn [app]. specialize (K6 eq_refl). apply (G e3 x' false); [congruence|congruence|congruence|congruence|reflexivity|intros Y; discriminate Y| |].
    + rewrite K6. split; [contradiction|]. intros (X&_). discriminate X.
    + rewrite K6. split; [discriminate|]. intros (X&_). discriminate X.
Qed.
Lemma go_invalid : forall c p s, knows p s -> let '(s', x) := step c Invalid s in goes c Invalid p s' x.
Proof.
  intros c p s K. pose proof K as (K1&K2&K3&K4&K5&K6&K7&K8&K9). cbn [step]. unfold on_invalid. rewrite K5. destruct (p_tx p) as [[id r]|] eqn:TX.
  - cbn [t_id t_start]. set (e1 := set_tx (Some (Tx id r true)) (s_evse s)). pose proof (check_max_ok c e1 id r true eq_refl) as C.
    destruct (check_max c e1) as [[e2 x] threw]. destruct C as (C1&C2&(w'&C3&C4)&_). exists (Past (p_upd p) (p_end p) (p_zero p) (p_last p) (p_tx p) w' (p_ops p)).
    split; [apply (NInvalid c x p w' id r); exact TX|]. split.
    + split.
      * rewrite C2. unfold watched. rewrite TX. change (e_meter e1) with (e_meter (s_evse s)). rewrite K4. split.
        -- intros (_&q0&q&l&n&->&B). exists id, q0, q, l, n. split; [reflexivity|exact B].
        -- intros (id'&q0&q&l&n&B&D). split; [reflexivity|]. exists q0, q, l, n. split; [congruence|exact D].
      * cbn [p_watch]. rewrite C4, TX. split; [intros [_ X]; split; [discriminate|exact X]|intros [_ X]; split; [reflexivity|exact X]].
    + unfold knows. cbn [p_upd p_end p_zero p_last p_tx p_watch p_ops s_evse s_zero s_db]. rewrite TX, C3. rewrite C1. cbn [set_tx e_upd e_end e_meter e1].
      split; [exact K1|]. split; [exact K2|]. split; [exact K3|]. split; [exact K4|]. split; [reflexivity|]. split; [discriminate|]. auto.
  - exists p. split; [apply NNothing; exact TX|]. split; [|exact K]. cbn [says]. unfold watched. rewrite TX. specialize (K6 eq_refl). rewrite K6. split.
    + split; [intros []|]. intros (id&q0&q&l&n&X&_). discriminate X.
    + split; [discriminate|]. intros [X _]. elim X. reflexivity.
Qed.
Lemma go_meter0 : forall c p s m, knows p s -> let '(s', x) := step c (Meter0 m) s in goes c (Meter0 m) p s' x.
Proof.
  intros c p s m (K1&K2&K3&K4&K5&K6&K7&K8&K9). cbn [step]. eexists. split; [apply NMeter0|]. split; [reflexivity|].
  unfold knows. cbn. split; [exact K1|]. split; [exact K2|]. split; [apply since_set; exact K3|]. auto 10.
Qed.
Lemma try_insert_tables : forall c id m d ops, d = tables ops -> fst (try_insert c id m d) = tables (Ins (c_fk c) id m :: ops).
Proof. intros c id m d ops ->. unfold try_insert. cbn [tables]. destruct (db_insert _ _ _ _); reflexivity. Qed.
Lemma try_insert_threw : forall c id m d, snd (try_insert c id m d) = true -> unwritable m.
Proof. intros c id m d. unfold try_insert. destruct (db_insert _ _ _ _) eqn:E; try discriminate. intros _. exact (db_insert_threw _ _ _ _ _ E). Qed.
Lemma go_store_aligned : forall c now t e ops h, since h (e_end e) -> (h <> [] -> last h d0 = e_meter e) ->
  let '(e', d', threw) := store_aligned c now t e (tables ops) in
  e' = set_end (if threw then retrieve (e_end e) else clear_values (e_end e)) e /\
    exists v, aligned_sample (c_round c) now (c_interval_ended c) h (e_meter e) v /\ d' = tables (Ins (c_fk c) (t_id t) v :: ops) /\ (threw = true -> unwritable v).
Proof.
  intros c now t e ops h S L. unfold store_aligned. pose proof (aligned_value_ok h (e_end e) e (c_round c) now (c_interval_ended c) S L) as A.
  set (v := aligned_value _ _ _ _ _) in *. pose proof (try_insert_tables c (t_id t) v (tables ops) ops eq_refl) as T. pose proof (try_insert_threw c (t_id t) v (tables ops)) as W.
  destruct (try_insert c (t_id t) v (tables ops)) as [d1 threw]. split; [reflexivity|]. exists v. auto.
Qed.
Lemma go_tick_aligned_ended : forall c p s now, knows p s -> let '(s', x) := step c (TickAlignedEnded now) s in goes c (TickAlignedEnded now) p s' x.
Proof.
  intros c p s now K. pose proof K as (K1&K2&K3&K4&K5&K6&K7&K8&K9). cbn [step]. unfold tick_aligned_ended. rewrite K5.
  destruct (p_tx p) as [[id r]|] eqn:TX.
  - rewrite K9. rewrite <- K4 in K8. pose proof (go_store_aligned c now (Tx id r (p_watch p)) (s_evse s) (p_ops p) (p_end p) K2 K8) as G.
    destruct (store_aligned _ _ _ _ _) as [[e' d'] threw]. destruct G as (->&v&A&->&W). rewrite K4 in A. cbn [t_id].
    destruct threw; eexists; (split; [first [apply (NTickAlignedEnded c now [] p id r v TX (fun X => X) A)|apply (NTickAlignedEndedThrew c now p id r v TX A (W eq_refl))]|]);
      (split; [cbn [says]; auto|]); unfold knows; cbn [p_upd p_end p_zero p_last p_tx p_watch p_ops s_evse s_zero s_db set_end e_upd e_end e_meter e_tx]; rewrite TX.
    + split; [exact K1|]. split; [apply since_retrieve; exact K2|]. split; [exact K3|]. split; [exact K4|]. split; [exact K5|]. split; [discriminate|]. split; [exact K7|].
      rewrite K4 in K8. split; [exact K8|reflexivity].
    + split; [exact K1|]. split; [apply since_nil|]. split; [exact K3|]. split; [exact K4|]. split; [exact K5|]. split; [discriminate|]. split; [exact K7|].
      split; [intros X; elim X; reflexivity|reflexivity].
  - exists p. split; [apply NNothing; exact TX|]. split; [left; reflexivity|exact K].
Qed.
Lemma go_tick_ended : forall c p s, knows p s -> let '(s', x) := step c TickEnded s in goes c TickEnded p s' x.
Proof.
  intros c p s K. pose proof K as (K1&K2&K3&K4&K5&K6&K7&K8&K9). cbn [step]. unfold tick_ended. rewrite K5. destruct (p_tx p) as [[id r]|] eqn:TX.
  - cbn [t_id]. rewrite K4. pose proof (try_insert_tables c id (p_last p) (s_db s) (p_ops p) K9) as T. pose proof (try_insert_threw c id (p_last p) (s_db s)) as W.
    destruct (try_insert _ _ _ _) as [d' threw]. cbn [fst snd] in *. eexists. split; [apply (NTickEnded c _ p id r TX)|].
    { destruct threw; [intros _; apply W; reflexivity|intros []]. }
    split; [destruct threw; cbn [says]; auto|].
    unfold knows. cbn [p_upd p_end p_zero p_last p_tx p_watch p_ops s_evse s_zero s_db]. rewrite TX, T. repeat (split; [assumption || discriminate|]). reflexivity.
  - exists p. split; [apply NNothing; exact TX|]. split; [left; reflexivity|exact K].
Qed.
Lemma go_tick_aligned : forall c p s now, knows p s -> let '(s', x) := step c (TickAligned now) s in goes c (TickAligned now) p s' x.
Proof.
  intros c p s now K. pose proof K as (K1&K2&K3&K4&K5&K6&K7&K8&K9). cbn [step]. unfold tick_aligned. rewrite K5. destruct (p_tx p) as [[id r]|] eqn:TX.
  - destruct (c_idle c) eqn:CI.
    + exists p. split; [apply NNothing; right; exact CI|]. split; [|exact K]. cbn [says]. rewrite TX, CI. reflexivity.
    + eexists. split; [apply (NTickAligned c now _ p id r TX CI)|]. split.
      * cbn [says]. rewrite TX, CI. cbn [t_id]. exists (aligned_value (e_upd (s_evse s)) (s_evse s) (c_round c) now (c_interval c)).
        rewrite <- K4 in *. split; [apply aligned_value_ok; assumption|]. apply callback_clock.
        destruct (aligned_value_ok _ _ (s_evse s) (c_round c) now (c_interval c) K1 K7) as (l&_&E&_). rewrite E. apply clocked_all.
      * unfold knows. cbn [p_upd p_end p_zero p_last p_tx p_watch p_ops s_evse s_zero s_db set_upd e_upd e_end e_meter e_tx]. rewrite TX.
        split; [apply since_nil|]. repeat (split; [assumption || discriminate || (intros X; elim X; reflexivity)|]). exact K9.
  - exists p. split; [apply NNothing; left; exact TX|]. split; [|exact K]. cbn [says]. rewrite TX. reflexivity.
Qed.
Lemma go_tick_updated : forall c p s, knows p s -> let '(s', x) := step c TickUpdated s in goes c TickUpdated p s' x.
Proof.
  intros c p s K. pose proof K as (K1&K2&K3&K4&K5&K6&K7&K8&K9). cbn [step]. unfold tick_updated. rewrite K5.
  destruct (p_tx p) as [[id r]|] eqn:TX; (exists p; split; [apply NNothing; exact Logic.I|]; split; [|exact K]); cbn [says]; rewrite TX; [|reflexivity].
  cbn [t_id]. rewrite K4. destruct (context_of (p_last p)) as [n|] eqn:C.
  - rewrite (told_ok c (p_last p) id n C). pose proof (told_case Updated id (filtered (c_updated c) true (m_samples (p_last p))) (p_last p)) as A.
    pose proof (told_case Updated id (filtered (c_aligned c) true (m_samples (p_last p))) (p_last p)) as B.
    split; [|split].
    + intros ->. change ((Sample_Periodic =? Sample_Clock) || (Sample_Periodic =? Sample_Periodic)) with true. change (Sample_Periodic =? Sample_Clock) with false. cbv iota.
      destruct (filtered (c_updated c) true (m_samples (p_last p))); exact A.
    + intros ->. change ((Sample_Clock =? Sample_Clock) || (Sample_Clock =? Sample_Periodic)) with true. change (Sample_Clock =? Sample_Clock) with true. cbv iota.
      destruct (filtered (c_aligned c) true (m_samples (p_last p))); exact B.
    + intros N1 N2. replace (n =? Sample_Clock) with false by lia. replace (n =? Sample_Periodic) with false by lia. reflexivity.
  - unfold context_of in C. unfold meter_callback. destruct (m_samples (p_last p)); [reflexivity|]. rewrite C. reflexivity.
Qed.
Lemma go_tick_idle : forall c p s now others, knows p s -> let '(s', x) := step c (TickIdle now others) s in goes c (TickIdle now others) p s' x.
Proof.
  intros c p s now others K. pose proof K as (K1&K2&K3&K4&K5&K6&K7&K8&K9). cbn [step]. unfold tick_idle.
  assert (B : is_some (e_tx (s_evse s)) = match p_tx p with Some _ => true | None => false end) by (rewrite K5; destruct (p_tx p) as [[id r]|]; reflexivity).
  rewrite B. rewrite (orb_comm _ others).
  assert (Z0 : p_zero p <> [] -> last (p_zero p) d0 = last (p_zero p) (MV [] 0 None)) by reflexivity.
  destruct (idle_ok c (s_zero s) now (p_zero p) true _ K3 Z0) as (l0&R0&X0). destruct (idle_ok c (e_upd (s_evse s)) now (p_upd p) false _ K1 K7) as (l1&R1&X1). cbv zeta in X0, X1.
  destruct (c_idle c && (others || match p_tx p with Some _ => true | None => false end)) eqn:CI.
  - exists p. split.
    + apply NNothing. apply andb_true_iff in CI. destruct CI as [CI O]. split; [exact CI|]. apply orb_true_iff in O. destruct O as [O|O]; [left; exact O|right].
      destruct (p_tx p); [discriminate|discriminate O].
    + split; [|exact K]. unfold says. rewrite CI. reflexivity.
  - destruct (p_tx p) as [[id r]|] eqn:TX.
    + assert (CI' : c_idle c = false) by (rewrite orb_true_r, andb_true_r in CI; exact CI).
      eexists. split; [apply (NTickIdleBusy c now others _ p id r TX CI')|]. split.
      * unfold says. rewrite TX, CI. exists l0, l1, (send_values true (idle_value c (s_zero s) now)), []. split; [rewrite app_nil_r; reflexivity|]. split; [exact R0|]. split; [exact X0|reflexivity].
      * unfold knows. cbn [p_upd p_end p_zero p_last p_tx p_watch p_ops s_evse s_zero s_db]. rewrite TX. split; [exact K1|]. split; [exact K2|]. split; [apply since_nil|].
        repeat (split; [assumption || discriminate|]). exact K9.
    + assert (CI' : c_idle c = true -> others = false) by (intros X; rewrite X, orb_false_r in CI; exact CI).
      eexists. split; [apply (NTickIdle c now others _ p TX CI')|]. split.
      * unfold says. rewrite TX, CI. exists l0, l1, (send_values true (idle_value c (s_zero s) now)), (send_values false (idle_value c (e_upd (s_evse s)) now)).
        split; [reflexivity|]. split; [exact R0|]. split; [exact X0|]. split; [exact R1|exact X1].
      * unfold knows. cbn [p_upd p_end p_zero p_last p_tx p_watch p_ops s_evse s_zero s_db set_upd e_upd e_end e_meter e_tx]. rewrite TX.
        split; [apply since_nil|]. split; [exact K2|]. split; [apply since_nil|]. split; [exact K4|]. split; [exact K5|]. split; [exact K6|]. split; [intros X; elim X; reflexivity|]. auto.
Qed.
(** The point of the clock before now. *)
Lemma midnight_of_ok : forall now, midnight now (midnight_of now).
Proof. intros now. split; [|exists (now / (day * second)); reflexivity]. unfold midnight_of, day, second. Z.to_euclidean_division_equations; lia. Qed.
Lemma missed_ok : forall c t0 now, 0 < c_interval_ended c ->
  if t0 <=? next_timepoint (midnight_of now) (c_interval_ended c) now - c_interval_ended c * second then missed c t0 now else not_missed c t0 now.
Proof.
  intros c t0 now I. pose proof (midnight_of_ok now) as M. set (mn := midnight_of now) in *.
  assert (G : let g := next_timepoint mn (c_interval_ended c) now - c_interval_ended c * second in on_grid mn (c_interval_ended c) g /\ now - c_interval_ended c * second <= g <= now).
  { cbv zeta. assert (S0 : 0 < second) by reflexivity. destruct M as [[M1 M2] _]. destruct (Z.eq_dec mn now) as [E|E].
    - rewrite next_before by lia. split; [exists (-1); ring|nia].
    - destruct (next_grid mn (c_interval_ended c) now I ltac:(lia)) as [(k&->) B]. split; [exists (k - 1); ring|]. lia. }
  cbv zeta in G. destruct (t0 <=? _) eqn:E.
  - split; [exact I|]. eexists _, _. split; [exact M|]. split; [exact (proj1 G)|]. split; [exact (proj2 G)|lia].
  - intros _. eexists _, _. split; [exact M|]. split; [exact (proj1 G)|]. split; [exact (proj2 G)|lia].
Qed.
Lemma go_start : forall c p s id t0 now m, knows p s -> let '(s', x) := step c (Start id t0 now m) s in goes c (Start id t0 now m) p s' x.
Proof.
  intros c p s id t0 now m K. pose proof K as (K1&K2&K3&K4&K5&K6&K7&K8&K9). cbn [step]. unfold on_started.
  pose proof (active_import_spec (e_meter (s_evse s))) as A. rewrite K4 in *.
  assert (R : forall r e1, e1 = set_tx (Some (Tx id r false)) (s_evse s) -> (match r with Some q => register (p_last p) q | None => ~ has_register (p_last p) end) ->
    let '(s', x) := let '(d1, threw) := try_insert c id m (s_db s) in
      if threw then (St e1 (s_zero s) d1, [Threw])
      else
        let '(e2, d2, threw2) := start_timers c t0 now (Tx id r false) e1 d1 in
        if threw2 then (St e2 (s_zero s) d2, [Threw])
        else
          let v := measurands_applied m (c_started c) true in
          (St e2 (s_zero s) d2, [Event Started id (match m_samples v with [] => [] | _ => [v] end)]) in
    goes c (Start id t0 now m) p s' x).
  { intros r e1 E1 RG. pose proof (try_insert_tables c id m (s_db s) (p_ops p) K9) as T. pose proof (try_insert_threw c id m (s_db s)) as W.
    destruct (try_insert c id m (s_db s)) as [d1 threw]. cbn [fst snd] in *.
    destruct threw.
    { eexists. split; [apply (NStartThrew c id t0 now m p r (W eq_refl) RG)|]. split; [left; reflexivity|]. unfold knows. cbn [p_upd p_end p_zero p_last p_tx p_watch p_ops s_evse s_zero s_db].
      rewrite T, E1. cbn [set_tx e_upd e_end e_meter e_tx]. repeat (split; [assumption || reflexivity || discriminate|]). reflexivity. }
    unfold start_timers. cbv zeta.
    set (e2 := set_end (clear_values (e_end e1)) (set_upd (clear_values (e_upd e1)) e1)).
    set (X := [Event Started id (match m_samples (measurands_applied m (c_started c) true) with [] => [] | _ => [measurands_applied m (c_started c) true] end)]).
    assert (XT : ~ In Threw X) by (unfold X; cbn; intuition discriminate).
    assert (XS : forall p', says c (Start id t0 now m) p p' X).
    { intros p'. right. unfold X, measurands_applied, with_samples. cbn [m_samples]. rewrite applied_filtered. destruct (filtered _ _ _); reflexivity. }
    assert (M2 : e_meter e2 = p_last p) by (unfold e2; rewrite E1; exact K4). assert (T2 : e_tx e2 = Some (Tx id r false)) by (unfold e2; rewrite E1; reflexivity).
    assert (EN2 : since [] (e_end e2)) by apply since_nil. assert (UP2 : since [] (e_upd e2)) by apply since_nil. clearbody e2.
    assert (G : forall e' ops x, e_meter e' = p_last p -> e_tx e' = Some (Tx id r false) -> since [] (e_end e') -> since [] (e_upd e') -> x = [Threw] \/ x = X ->
      noted c (Start id t0 now m) x p (Past [] [] (p_zero p) (p_last p) (Some (id, r)) false ops) -> goes c (Start id t0 now m) p (St e' (s_zero s) (tables ops)) x).
    { intros e' ops x G1 G2 G3 G4 G6 G5. eexists. split; [exact G5|]. split; [destruct G6 as [-> | ->]; [left; reflexivity|apply XS]|].
      unfold knows. cbn [p_upd p_end p_zero p_last p_tx p_watch p_ops s_evse s_zero s_db].
      repeat (split; [assumption || discriminate || (intros Z; elim Z; reflexivity)|]). reflexivity. }
    destruct (0 <? c_interval_ended c) eqn:I.
    - assert (I' : 0 < c_interval_ended c) by lia. pose proof (missed_ok c t0 now I') as MI. destruct (t0 <=? _).
      + rewrite T. pose proof (go_store_aligned c now (Tx id r false) e2 (Ins (c_fk c) id m :: p_ops p) [] EN2 ltac:(intros Z; elim Z; reflexivity)) as SA.
        destruct (store_aligned c now (Tx id r false) e2 (tables (Ins (c_fk c) id m :: p_ops p))) as [[e3 d3] threw3]. destruct SA as (->&v&AV&->&W2). cbn [t_id]. rewrite M2 in AV.
        destruct threw3.
        * apply G; [exact M2|exact T2|apply since_retrieve; exact EN2|exact UP2|left; reflexivity|]. apply NStartMissed; auto.
        * apply G; [exact M2|exact T2|apply since_nil|exact UP2|right; reflexivity|]. apply NStartMissed; auto; intros Z; contradiction.
      + rewrite T. apply G; auto. apply NStart; assumption.
    - rewrite T. apply G; auto. apply NStart; [exact XT|intros Z; lia|exact RG]. }
  destruct (active_import (p_last p)) as [|q|].
  - exact (R None _ eq_refl A).
  - exact (R (Some q) _ eq_refl A).
  - eexists. split; [apply (NStartUnit c id t0 now m p); apply A|]. split; [left; reflexivity|]. unfold knows. cbn [p_upd p_end p_zero p_last p_tx p_watch p_ops s_evse s_zero s_db set_tx e_upd e_end e_meter e_tx].
    repeat (split; [assumption || reflexivity || discriminate|]). exact K9.
Qed.
Lemma go_finish : forall c p s t1 m, knows p s -> let '(s', x) := step c (Finish t1 m) s in ~ In Undefined x -> goes c (Finish t1 m) p s' x.
Proof.
  intros c p s t1 m K. pose proof K as (K1&K2&K3&K4&K5&K6&K7&K8&K9). cbn [step]. unfold on_finished. rewrite K5. destruct (p_tx p) as [[id r]|] eqn:TX.
  - cbn [t_id]. pose proof (try_insert_tables c id m (s_db s) (p_ops p) K9) as T. pose proof (try_insert_threw c id m (s_db s)) as W.
    destruct (try_insert c id m (s_db s)) as [d1 threw]. cbn [fst snd] in *.
    destruct threw.
    { intros _. eexists. split; [apply (NFinishThrew c t1 m p id r TX (W eq_refl))|]. split; [cbn [says]; rewrite TX; left; reflexivity|].
      unfold knows. cbn [p_upd p_end p_zero p_last p_tx p_watch p_ops s_evse s_zero s_db]. rewrite T, TX. repeat (split; [assumption || discriminate|]). reflexivity. }
    destruct (db_get_all id d1) as [l|] eqn:GA; [|intros N; elim N; left; reflexivity].
    intros _. exists (Past [] (p_end p) (p_zero p) (p_last p) None false (Clr id :: Ins (c_fk c) id m :: p_ops p)).
    split; [apply (NFinish c t1 m _ p id r TX); cbn; intuition discriminate|]. split.
    + cbn [says]. rewrite TX. right. intros P PM. destruct (tables_ok (Ins (c_fk c) id m :: p_ops p)) as (st&KE&OK); [constructor; [exact PM|exact P]|].
      destruct (get_all_ok _ st id OK) as (v&V&PE&SO). rewrite <- T in V. rewrite GA in V. injection V as ->.
      exists st, v, (all_applied v (c_ended c) (c_aligned_ended c) t1 (c_sign c) (c_sign_aligned c)). split; [exact KE|]. split; [exact PE|]. split; [exact SO|].
      split; [apply all_applied_spec|reflexivity].
    + unfold knows. cbn [p_upd p_end p_zero p_last p_tx p_watch p_ops s_evse s_zero s_db reset_triggers set_tx set_upd e_upd e_end e_meter e_tx].
      split; [apply since_nil|]. split; [exact K2|]. split; [exact K3|]. split; [exact K4|]. split; [reflexivity|]. split; [reflexivity|].
      split; [intros X; elim X; reflexivity|]. split; [exact K8|]. rewrite T. reflexivity.
  - intros _. exists p. split; [apply NNothing; exact TX|]. split; [cbn [says]; rewrite TX; reflexivity|exact K].
Qed.
Lemma go_step : forall c o p s s' x, knows p s -> step c o s = (s', x) -> ~ In Undefined x -> goes c o p s' x.
Proof.
  intros c o p s s' x K E N. destruct o.
  - pose proof (go_meter c p s m K) as G. rewrite E in G. exact G.
  - pose proof (go_meter0 c p s m K) as G. rewrite E in G. exact G.
  - pose proof (go_start c p s id t0 now m K) as G. rewrite E in G. exact G.
  - pose proof (go_finish c p s t1 m K) as G. rewrite E in G. exact (G N).
  - pose proof (go_tick_updated c p s K) as G. rewrite E in G. exact G.
  - pose proof (go_tick_ended c p s K) as G. rewrite E in G. exact G.
  - pose proof (go_tick_aligned c p s now K) as G. rewrite E in G. exact G.
  - pose proof (go_tick_aligned_ended c p s now K) as G. rewrite E in G. exact G.
  - pose proof (go_tick_idle c p s now others K) as G. rewrite E in G. exact G.
  - pose proof (go_invalid c p s K) as G. rewrite E in G. exact G.
  - cbn [step] in E. injection E as <- <-. exists p. split; [apply NNothing; exact Logic.I|]. split; [reflexivity|exact K].
  - cbn [step] in E. assert (X : let '(e, l) := time_trigger (s_evse s) in same_metering (s_evse s) e).
    { unfold time_trigger. destruct (e_timer (s_evse s)); repeat split. }
    destruct (time_trigger (s_evse s)) as [e l]. injection E as <- <-. destruct X as (X1&X2&X3&X4). exists p. split; [apply NNothing; exact Logic.I|]. split; [exact Logic.I|].
    unfold knows in *. cbn [s_evse s_zero s_db]. rewrite X1, X2, X3, X4. exact K.
  - cbn [step] in E. injection E as <- <-. destruct K as (K1&K2&K3&K4&K5&K6&K7&K8&K9). eexists. split; [apply NOtherInsert|]. split; [reflexivity|].
    unfold knows. cbn [p_upd p_end p_zero p_last p_tx p_watch p_ops s_evse s_zero s_db]. rewrite (try_insert_tables c id m (s_db s) (p_ops p) K9). repeat (split; [assumption|]). reflexivity.
  - cbn [step] in E. injection E as <- <-. destruct K as (K1&K2&K3&K4&K5&K6&K7&K8&K9). eexists. split; [apply NOtherClear|]. split; [reflexivity|].
    unfold knows. cbn [p_upd p_end p_zero p_last p_tx p_watch p_ops s_evse s_zero s_db]. rewrite K9. repeat (split; [assumption|]). reflexivity.
Qed.
(** ** Any history *)
(** What was called and said, the latest first. *)
Fixpoint trace (l : list (config * op)) (s : state) : list (config * op * list out) * state :=
  match l with
  | [] => ([], s)
  | (c, o) :: q => let '(r, s1) := trace q s in let '(s2, x) := step c o s1 in ((c, o, x) :: r, s2)
  end.
Lemma trace_history : forall t l, Forall (fun e => ~ In Undefined (snd e)) (fst (trace l (boot t))) ->
  exists p, history t (fst (trace l (boot t))) p /\ knows p (snd (trace l (boot t))).
Proof.
  intros t. induction l as [|[c o] q IH]; intros F.
  - eexists. split; [constructor|apply knows_boot].
  - cbn [trace] in *. destruct (trace q (boot t)) as [r s1]. destruct (step c o s1) as [s2 x] eqn:E. cbn [fst snd] in *. inversion F; subst.
    destruct (IH H2) as (p&H&K). destruct (go_step c o p s1 s2 x K E H1) as (p'&N&S&K'). exists p'. split; [|exact K']. econstructor; eassumption.
Qed.
