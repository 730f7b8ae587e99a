(** Proofs about the monitoring updater: when passes end, event numbers, periodic reports. *)
From Coq Require Import ZArith List Bool Lia.
From Verif Require Import MonModel MonSpec MonSpec2 MonProofs MonProofs2 MonProofs3 MonProofs4.
Import ListNotations.
Local Open Scope Z_scope.

(** * When the loop ends *)
(** As many iterations as there are entries, and one, are enough if any number is. *)
Lemma loop_more : forall v per todo n d uid o,
  loop (S (length todo)) v per true (Cur d todo uid o) = None -> loop n v per true (Cur d todo uid o) = None.
Proof.
  intros v per todo. induction todo as [|e q IH]; intros n d uid o H; [discriminate H|].
  destruct n as [|n]; [reflexivity|]. remember (S (length q)) as k eqn:EK. cbn [length] in H. rewrite <- EK in H.
  cbn [loop] in *. unfold iterate in *. cbn [l_todo l_uid l_done l_out] in *.
  destruct (visit v per true uid e) as [e1|e1 u l|u l|e1 u|] eqn:V; try discriminate H; subst k.
  - apply stay_forever. apply visit_stay in V as S. destruct (visit_stuck v per uid e S) as (e2&V2&S2). rewrite V in V2. injection V2 as ->. auto.
  - apply IH. auto.
  - apply IH. auto.
Qed.
(** It does not end if and only if it comes to an entry at which the iterator stays. *)
Lemma loop_none : forall v per todo d uid o, Forall good todo ->
  (forall e u, In e todo -> (u_kind e = KPeriodic -> per = true -> wanted v (u_mon e) = true ->
      (forall e1 u1, visit v per true u e <> Leave e1 u1) /\ visit v per true u e <> Break)) ->
  (loop (S (length todo)) v per true (Cur d todo uid o) = None <-> Exists (stuck v per) todo).
Proof.
  intros v per todo. induction todo as [|e q IH]; intros d uid o G Q.
  - cbn. split; [discriminate|]. intros X. inversion X.
  - inversion G as [|? ? Ge Gq]; subst. remember (S (length q)) as k eqn:EK. cbn [length]. rewrite <- EK. cbn [loop]. unfold iterate. cbn [l_todo l_uid l_done l_out].
    assert (Q1 : forall e0 u, In e0 q -> u_kind e0 = KPeriodic -> per = true -> wanted v (u_mon e0) = true ->
       (forall e1 u1, visit v per true u e0 <> Leave e1 u1) /\ visit v per true u e0 <> Break) by (intros; apply Q; auto; right; auto).
    assert (DEC : stuck v per e \/ ~ stuck v per e).
    { unfold stuck. destruct (u_kind e); [right; intuition discriminate|]. destruct per; [|auto]. destruct (wanted v (u_mon e)); intuition discriminate. }
    destruct DEC as [S|S].
    + destruct (visit_stuck v per uid e S) as (e1&->&S1). rewrite stay_forever by auto. split; auto.
    + assert (STEP : exists r u l, visit v per true uid e = match r with Some e1 => Keep e1 u l | None => Erase u l end).
      { destruct (u_kind e) eqn:K.
        - destruct (visit_trigger v per uid e Ge K) as (r&uid1&l1&E&_). eauto.
        - destruct per; [|exfalso; apply S; split; auto].
          destruct (wanted v (u_mon e)) eqn:WA; [|exfalso; apply S; split; auto].
          destruct (Q e uid (or_introl eq_refl) K eq_refl WA) as (Q2&Q3).
          destruct (visit_periodic v true uid e Ge K) as [(S1&S2)|[(e1&u1&X)|[X|(e1&u1&l1&X&R&_)]]].
          + congruence.
          + exfalso. exact (Q2 _ _ X).
          + exfalso. exact (Q3 X).
          + exists (Some e1), u1, l1. auto. }
      destruct STEP as (r&u&l&E). rewrite E. rewrite Exists_cons. subst k.
      destruct r; rewrite IH by auto; tauto.
Qed.

(** * The triggered pass *)
Lemma exists_timing : forall es, NoDup (map u_id es) ->
  (Exists (fun e => u_kind e = KPeriodic) es <-> exists i t, life_of i es = Timing t).
Proof.
  intros es N. split.
  - intros X. apply Exists_exists in X. destruct X as (e&I&K). exists (u_id e). unfold life_of.
    assert (F : find_entry (u_id e) es = Some e).
    { clear K. induction es as [|x q IH]; [destruct I|]. inversion N as [|? ? Nx Nq]; subst. unfold find_entry in *. cbn [find].
      destruct I as [->|I]; [rewrite Z.eqb_refl; reflexivity|]. destruct (u_id x =? u_id e) eqn:E; auto.
      apply Z.eqb_eq in E. exfalso. apply Nx. rewrite E. apply in_map. auto. }
    rewrite F. unfold abs. rewrite K. eauto.
  - intros (i&t&L). unfold life_of in L. destruct (find_entry i es) as [e|] eqn:F; [|discriminate].
    apply find_some in F. destruct F as (I&_). apply Exists_exists. exists e. split; auto. unfold abs in L. destruct (u_kind e); [discriminate|reflexivity].
Qed.
Lemma triggered_hangs : forall v p, inv p -> p_status p = Fine ->
  (p_status (process v false true p) = Hung <-> v_enabled v = true /\ Exists (fun e => u_kind e = KPeriodic) (p_entries p)).
Proof.
  intros v p (I1&I2) F. unfold process. destruct (v_enabled v); cbn [negb]; [|rewrite F; split; [discriminate|intuition discriminate]].
  assert (L : loop (S (length (p_entries p))) v false true (Cur [] (p_entries p) (p_uid p) []) = None <-> Exists (fun e => u_kind e = KPeriodic) (p_entries p)).
  { rewrite loop_none; auto; [|intros; discriminate]. split; intros X; eapply Exists_impl; try exact X; intros e; unfold stuck; cbn; intuition. }
  destruct (loop _ _ _ _ _) as [[c|c|]|]; cbn [set_status p_status].
  - rewrite F. split; [discriminate|]. intros (_&X). apply L in X. discriminate.
  - rewrite F. split; [discriminate|]. intros (_&X). apply L in X. discriminate.
  - split; [discriminate|]. intros (_&X). apply L in X. discriminate.
  - split; auto. intros _. split; auto. apply L. auto.
Qed.
(** * The timer pass *)
Lemma add_periodics_done : forall v l es, (forall var m, In (var, m) l -> (n_type m = Periodic \/ n_type m = Aligned) /\ n_value m <> 0) ->
  exists r, add_periodics v l es = Done r.
Proof.
  intros v l. induction l as [|(var&m) q IH]; intros es H; [exists es; reflexivity|].
  cbn [add_periodics]. destruct (find_entry (n_id m) es); [apply IH; intros; apply H with var0; right; auto|].
  destruct (H var m (or_introl eq_refl)) as (T&V). unfold new_periodic.
  assert (H' : forall var0 m0, In (var0, m0) q -> (n_type m0 = Periodic \/ n_type m0 = Aligned) /\ n_value m0 <> 0) by (intros; apply H with var0; right; auto).
  destruct T as [->| ->]; [apply IH; auto|]. rewrite (next_point_eq _ _ V). apply IH; auto.
Qed.
Lemma timer_hangs : forall v p,
  inv p -> p_status p = Fine ->
  (forall var m, In (var, m) (flat (v_periodic v)) -> (n_type m = Periodic \/ n_type m = Aligned) /\ n_value m <> 0) ->
  (forall i t, appear v i (life_of i (p_entries p)) = Timing t ->
     (n_type (t_mon t) = Periodic \/ n_type (t_mon t) = Aligned) /\ n_value (t_mon t) <> 0 /\ v_value v (t_var t) <> None) ->
  (p_status (process v true true p) = Hung \/ p_status (process v true true p) = Fine /\ exists l, p_out (process v true true p) = p_out p ++ l /\ ~ In OThrow l) /\
  (p_status (process v true true p) = Hung <->
   v_enabled v = true /\ exists i t, appear v i (life_of i (p_entries p)) = Timing t /\ admitted v (t_mon t) = false).
Proof.
  intros v p (I1&I2) F H1 H2. unfold process. destruct (v_enabled v); cbn [negb].
  2:{ rewrite F. split; [right; split; auto; exists []; rewrite app_nil_r; auto|]. split; [discriminate|intuition discriminate]. }
  destruct (add_periodics_done v (flat (v_periodic v)) (p_entries p) H1) as (es1&A).
  assert (U : update_periodics v (p_entries p) = Done (filter (still_there (flat (v_periodic v))) es1)) by (unfold update_periodics; rewrite A; reflexivity).
  rewrite U. set (es := filter (still_there (flat (v_periodic v))) es1) in *. clearbody es. clear A.
  destruct (update_periodics_ok v _ _ I2 I1 U) as (G&N&L).
  assert (SANE : forall e u, In e es -> u_kind e = KPeriodic -> true = true -> wanted v (u_mon e) = true ->
      (forall e1 u1, visit v true true u e <> Leave e1 u1) /\ visit v true true u e <> Break).
  { intros e u I K _ WA.
    assert (LE : exists i t, life_of i es = Timing t /\ t_mon t = u_mon e /\ t_var t = u_var e).
    { exists (u_id e). unfold life_of.
      assert (Fe : find_entry (u_id e) es = Some e).
      { clear - I N. induction es as [|x q IH]; [destruct I|]. inversion N as [|? ? Nx Nq]; subst. unfold find_entry in *. cbn [find].
        destruct I as [->|I]; [rewrite Z.eqb_refl; reflexivity|]. destruct (u_id x =? u_id e) eqn:E; auto.
        apply Z.eqb_eq in E. exfalso. apply Nx. rewrite E. apply in_map. auto. }
      rewrite Fe. unfold abs. rewrite K. eexists. split; [reflexivity|]. auto. }
    destruct LE as (i&t&LE&M1&M2). rewrite L in LE. destruct (H2 i t LE) as (T&V&X). rewrite M1 in *. rewrite M2 in X.
    unfold visit. rewrite K. cbn [negb]. rewrite WA. cbn [negb].
    assert (PM : exists e1 u1, process_meta v u e = Done (e1, u1)).
    { unfold process_meta. rewrite K.
      assert (D : exists e1 b, due v e = Done (e1, b) /\ u_var e1 = u_var e).
      { unfold due. destruct T as [->| ->].
        - destruct (_ <? _); [eexists (set_u_last _ e), true|eexists e, false]; split; try reflexivity; destruct e; reflexivity.
        - destruct (_ <? _); [rewrite (next_point_eq _ _ V); eexists (set_u_next _ e), true|eexists e, false]; split; try reflexivity; destruct e; reflexivity. }
      destruct D as (e1&b&->&Ev). destruct b; [|eauto]. rewrite Ev. destruct (v_value v (u_var e)); [eauto|congruence]. }
    destruct PM as (e1&u1&->). destruct (send v e1) as (e2&l). destruct (should_remove e2); split; intros; discriminate. }
  pose proof (loop_none v true es [] (p_uid p) [] G SANE) as LN.
  assert (EX : Exists (stuck v true) es <-> exists i t, appear v i (life_of i (p_entries p)) = Timing t /\ admitted v (t_mon t) = false).
  { split.
    - intros X. apply Exists_exists in X. destruct X as (e&I&K&S). destruct S as [S|S]; [discriminate|].
      exists (u_id e). rewrite <- L. unfold life_of.
      assert (Fe : find_entry (u_id e) es = Some e).
      { clear - I N. induction es as [|x q IH]; [destruct I|]. inversion N as [|? ? Nx Nq]; subst. unfold find_entry in *. cbn [find].
        destruct I as [->|I]; [rewrite Z.eqb_refl; reflexivity|]. destruct (u_id x =? u_id e) eqn:E; auto.
        apply Z.eqb_eq in E. exfalso. apply Nx. rewrite E. apply in_map. auto. }
      rewrite Fe. unfold abs. rewrite K. eexists. split; [reflexivity|]. cbn [t_mon]. rewrite <- wanted_admitted. auto.
    - intros (i&t&E&AD). rewrite <- L in E. unfold life_of in E. destruct (find_entry i es) as [e|] eqn:Fe; [|discriminate].
      apply find_some in Fe. destruct Fe as (I&_). apply Exists_exists. exists e. split; auto. unfold abs in E. destruct (u_kind e) eqn:K; [discriminate|].
      injection E as <-. split; auto. right. rewrite wanted_admitted. auto. }
  rewrite <- EX, <- LN. clear EX.
  destruct (loop (S (length es)) v true true (Cur [] es (p_uid p) [])) as [[c|c|]|] eqn:LP; cbn [set_status p_status p_out].
  - rewrite F. split.
    + right. split; auto. destruct (loop_over _ _ _ _ _ _ _ _ G N LP) as (rest&l&E1&E2&_&_&_&NT&_). cbn [app] in E2. rewrite E2. eauto.
    + split; [discriminate|]. intros (_&X). discriminate.
  - exfalso. revert LP SANE. clear. revert c. generalize (@nil entry) at 1. generalize (p_uid p). generalize (@nil out). generalize (S (length es)). intros n.
    revert es. induction n as [|n IH]; intros es o u d c LP SANE; [discriminate|]. cbn [loop] in LP. unfold iterate in LP. cbn [l_todo l_uid l_done l_out] in LP.
    destruct es as [|e q]; [discriminate|]. destruct (visit v true true u e) as [e1|e1 u1 l|u1 l|e1 u1|] eqn:V; try discriminate.
    + apply visit_stay in V as S. rewrite stay_forever in LP; [discriminate|]. destruct (visit_stuck v true u e S) as (e2&V2&S2). rewrite V in V2. injection V2 as ->. auto.
    + eapply IH; [exact LP|]. intros; apply SANE; auto. right; auto.
    + eapply IH; [exact LP|]. intros; apply SANE; auto. right; auto.
    + assert (K : u_kind e = KPeriodic /\ wanted v (u_mon e) = true).
      { unfold visit in V. destruct (u_kind e) eqn:K; cbn [negb] in V; destruct (wanted v (u_mon e)); cbn [negb] in V; try discriminate; auto.
        exfalso. unfold process_meta in V. rewrite K in V. destruct (u_gen e); match type of V with context [send v ?x] => destruct (send v x) as (e2&l2) end; destruct (should_remove e2); discriminate. }
      destruct (SANE e u (or_introl eq_refl) (proj1 K) eq_refl (proj2 K)) as (X&_). exact (X _ _ V).
  - exfalso. revert LP SANE. clear. generalize (@nil entry) at 1. generalize (p_uid p). generalize (@nil out). generalize (S (length es)). intros n.
    revert es. induction n as [|n IH]; intros es o u d LP SANE; [discriminate|]. cbn [loop] in LP. unfold iterate in LP. cbn [l_todo l_uid l_done l_out] in LP.
    destruct es as [|e q]; [discriminate|]. destruct (visit v true true u e) as [e1|e1 u1 l|u1 l|e1 u1|] eqn:V; try discriminate.
    + apply visit_stay in V as S. rewrite stay_forever in LP; [discriminate|]. destruct (visit_stuck v true u e S) as (e2&V2&S2). rewrite V in V2. injection V2 as ->. auto.
    + eapply IH; [exact LP|]. intros; apply SANE; auto. right; auto.
    + eapply IH; [exact LP|]. intros; apply SANE; auto. right; auto.
    + assert (K : u_kind e = KPeriodic /\ wanted v (u_mon e) = true).
      { unfold visit in V. destruct (u_kind e) eqn:K; cbn [negb] in V; destruct (wanted v (u_mon e)); cbn [negb] in V; try discriminate; auto.
        exfalso. unfold process_meta in V. rewrite K in V. destruct (u_gen e); match type of V with context [send v ?x] => destruct (send v x) as (e2&l2) end; destruct (should_remove e2); discriminate. }
      destruct (SANE e u (or_introl eq_refl) (proj1 K) eq_refl (proj2 K)) as (_&X). exact (X V).
  - split; auto. split; auto.
Qed.

(** * Event numbers *)
Definition cnt (k : Z) (l : list event) : nat := count_occ Z.eq_dec (map e_id l) k.
Lemma cnt_app : forall k a b, cnt k (a ++ b) = (cnt k a + cnt k b)%nat.
Proof. intros. unfold cnt. rewrite map_app, count_occ_app. reflexivity. Qed.
Definition all_events (es : list entry) : list event := flat_map u_evs es.
Lemma all_app : forall k a b, cnt k (all_events (a ++ b)) = (cnt k (all_events a) + cnt k (all_events b))%nat.
Proof. intros. unfold all_events. rewrite flat_map_app, cnt_app. reflexivity. Qed.
Lemma sent_app : forall k a b, cnt k (events_sent (a ++ b)) = (cnt k (events_sent a) + cnt k (events_sent b))%nat.
Proof. intros. unfold events_sent. rewrite flat_map_app, cnt_app. reflexivity. Qed.
(** Every number below the counter at most once, none from it on. *)
Definition fresh_ids (uid : Z) (f : Z -> nat) : Prop := forall k, (f k <= 1)%nat /\ (uid <= k -> f k = O).
Definition ids_ok (p : upd) : Prop := fresh_ids (p_uid p) (fun k => cnt k (events_sent (p_out p)) + cnt k (all_events (p_entries p)))%nat.
(** Events appear only with the number of the counter, which is then past. *)
Definition grows (uid uid1 : Z) (f g : Z -> nat) : Prop :=
  uid <= uid1 /\ forall k, (g k <= f k)%nat \/ (uid <= k < uid1 /\ (g k <= f k + 1)%nat).
Lemma grows_ok : forall uid uid1 f g, fresh_ids uid f -> grows uid uid1 f g -> fresh_ids uid1 g.
Proof.
  intros uid uid1 f g H (A&B) k. destruct (H k) as (H1&H2). destruct (B k) as [B1|(B1&B2)].
  - split; [lia|]. intros X. specialize (H2 ltac:(lia)). lia.
  - specialize (H2 (proj1 B1)). split; lia.
Qed.
Lemma cnt_one : forall k e, cnt k [e] = if Z.eq_dec (e_id e) k then 1%nat else 0%nat.
Proof. intros. unfold cnt. cbn. destruct (Z.eq_dec (e_id e) k); reflexivity. Qed.
Lemma meta_grows : forall v uid e e1 uid1,
  process_meta v uid e = Done (e1, uid1) \/ process_meta v uid e = Thrown (e1, uid1) ->
  uid <= uid1 /\ forall k, (cnt k (u_evs e1) <= cnt k (u_evs e))%nat \/ (uid <= k < uid1 /\ (cnt k (u_evs e1) <= cnt k (u_evs e) + 1)%nat).
Proof.
  intros v uid e e1 uid1 H. unfold process_meta in H. destruct (u_kind e).
  - destruct (u_gen e).
    + destruct H as [H|H]; [|discriminate]. injection H as <- <-. split; [lia|]. intros; left; lia.
    + destruct H as [H|H]; [|discriminate]. injection H as <- <-. split; [lia|]. intros k.
      match goal with |- context [set_u_evs (_ ++ [?x]) _] => set (ev := x) end.
      assert (e_id ev = uid) by (unfold ev; destruct (is_delta _); reflexivity).
      assert (u_evs (set_u_evs (u_evs e ++ [ev]) (set_u_gen true e)) = u_evs e ++ [ev]) as -> by (destruct e; reflexivity).
      rewrite cnt_app, cnt_one, H. destruct (Z.eq_dec uid k); [right; lia|left; lia].
  - assert (D : forall e2 b, due v e = Done (e2, b) \/ due v e = Thrown (e2, b) -> u_evs e2 = u_evs e).
    { intros e2 b. unfold due. destruct (n_type (u_mon e)).
      1-3: intros [X|X]; [discriminate|injection X as <- <-; reflexivity].
      - destruct (_ <? _); intros [X|X]; try discriminate; injection X as <- <-; destruct e; reflexivity.
      - destruct (_ <? _); [destruct (next_aligned _ _)|]; intros [X|X]; try discriminate; injection X as <- <-; destruct e; reflexivity. }
    destruct (due v e) as [(e2&b)|(e2&b)|].
    + specialize (D e2 b (or_introl eq_refl)). destruct b.
      * destruct (v_value v (u_var e2)) as [x|].
        -- destruct H as [H|H]; [|discriminate]. injection H as <- <-. split; [lia|]. intros k.
           match goal with |- context [set_u_evs (_ ++ [?y]) _] => set (ev := y) end.
           assert (e_id ev = uid) by reflexivity.
           assert (u_evs (set_u_evs (u_evs e2 ++ [ev]) e2) = u_evs e2 ++ [ev]) as -> by (destruct e2; reflexivity).
           rewrite D, cnt_app, cnt_one, H. destruct (Z.eq_dec uid k); [right; lia|left; lia].
        -- destruct H as [H|H]; [discriminate|]. injection H as <- <-. rewrite D. split; [lia|]. intros; left; lia.
      * destruct H as [H|H]; [|discriminate]. injection H as <- <-. rewrite D. split; [lia|]. intros; left; lia.
    + specialize (D e2 b (or_intror eq_refl)). destruct H as [H|H]; [discriminate|]. injection H as <- <-. rewrite D. split; [lia|]. intros; left; lia.
    + destruct H; discriminate.
Qed.
Lemma send_cnt : forall v e e1 l k, send v e = (e1, l) -> (cnt k (u_evs e1) + cnt k (events_sent l) = cnt k (u_evs e))%nat.
Proof.
  intros v e e1 l k H. unfold send in H. destruct (v_offline v).
  - injection H as <- <-. cbn. lia.
  - destruct (u_evs e) as [|x q] eqn:Q.
    + injection H as <- <-. rewrite Q. cbn. lia.
    + injection H as <- <-. rewrite <- Q. 
      assert (X : u_evs (match u_kind e with KTrigger => set_u_told (u_told e || negb (u_clear e)) (set_u_sent true (set_u_evs [] e)) | KPeriodic => set_u_evs [] e end) = [])
        by (destruct e as [kd ? ? ? ? ? ? ? ? ? ? ? ? ?]; destruct kd; reflexivity).
      rewrite X. cbn [events_sent flat_map]. rewrite app_nil_r. reflexivity.
Qed.
Definition cur_cnt (c : cursor) (k : Z) : nat := (cnt k (events_sent (l_out c)) + cnt k (all_events (l_done c ++ l_todo c)))%nat.
Lemma all_cons : forall k e q, cnt k (all_events (e :: q)) = (cnt k (u_evs e) + cnt k (all_events q))%nat.
Proof. intros. unfold all_events. cbn [flat_map]. apply cnt_app. Qed.
Lemma visit_grows : forall v per uid e,
  match visit v per true uid e with
  | Stay e1 => True
  | Keep e1 uid1 l => grows uid uid1 (fun k => cnt k (u_evs e)) (fun k => cnt k (u_evs e1) + cnt k (events_sent l))%nat
  | Erase uid1 l => grows uid uid1 (fun k => cnt k (u_evs e)) (fun k => cnt k (events_sent l))
  | Leave e1 uid1 => grows uid uid1 (fun k => cnt k (u_evs e)) (fun k => cnt k (u_evs e1))
  | Break => True
  end.
Proof.
  intros v per uid e. unfold visit. destruct (match u_kind e with KTrigger => _ | KPeriodic => _ end); [trivial|].
  destruct (negb (wanted v (u_mon e))).
  { destruct (u_kind e); [|trivial]. split; [lia|]. intros k. left. cbn. lia. }
  pose proof (meta_grows v uid e) as M. destruct (process_meta v uid e) as [(e1&u1)|(e1&u1)|]; [| |trivial].
  - destruct (M e1 u1 (or_introl eq_refl)) as (M1&M2). destruct (send v e1) as (e2&l) eqn:S.
    destruct (should_remove e2); split; auto; intros k; pose proof (send_cnt v e1 e2 l k S); destruct (M2 k) as [X|(X1&X2)]; lia.
  - destruct (M e1 u1 (or_intror eq_refl)) as (M1&M2). split; auto.
Qed.
Lemma loop_grows : forall v per n c x, loop n v per true c = Some x ->
  match x with Over c1 | Aborted c1 => grows (l_uid c) (l_uid c1) (cur_cnt c) (cur_cnt c1) | Broken => True end /\
  match x with Over c1 => l_todo c1 = [] | _ => True end.
Proof.
  intros v per n. induction n as [|n IH]; intros [d t uid o] x H; [discriminate|]. cbn [loop] in H. unfold iterate in H. cbn [l_todo l_uid l_done l_out] in H.
  assert (REFL : forall u f, grows u u f f) by (intros u f; split; [lia|intros; left; lia]).
  assert (TRANS : forall a b c f g h, grows a b f g -> grows b c g h -> fresh_ids a f -> grows a c f h \/ True) by auto. clear TRANS.
  destruct t as [|e q]; [injection H as <-; auto|].
  pose proof (visit_grows v per uid e) as V. destruct (visit v per true uid e) as [e1|e1 u1 l|u1 l|e1 u1|] eqn:VE.
  - apply visit_stay in VE as S. destruct (visit_stuck v per uid e S) as (e2&V2&S2). rewrite VE in V2. injection V2 as ->.
    rewrite stay_forever in H by auto. discriminate.
  - apply IH in H. destruct H as (H1&H2). split; auto. destruct x as [c1|c1|]; auto.
    all: destruct V as (V1&V2); destruct H1 as (H3&H4); cbn [l_uid] in *; split; [lia|]; intros k; specialize (V2 k); specialize (H4 k);
      unfold cur_cnt in *; cbn [l_out l_done l_todo] in *; rewrite ?sent_app, ?all_app, ?all_cons in *; cbn [all_events flat_map cnt map count_occ] in *; lia.
  - apply IH in H. destruct H as (H1&H2). split; auto. destruct x as [c1|c1|]; auto.
    all: destruct V as (V1&V2); destruct H1 as (H3&H4); cbn [l_uid] in *; split; [lia|]; intros k; specialize (V2 k); specialize (H4 k);
      unfold cur_cnt in *; cbn [l_out l_done l_todo] in *; rewrite ?sent_app, ?all_app, ?all_cons in *; cbn [all_events flat_map cnt map count_occ] in *; lia.
  - injection H as <-. split; auto. destruct V as (V1&V2). cbn [l_uid] in *. split; [lia|]. intros k. specialize (V2 k).
    unfold cur_cnt. cbn [l_out l_done l_todo]. rewrite ?all_app, ?all_cons. lia.
  - injection H as <-. auto.
Qed.
Lemma add_periodics_events : forall v l es r, (add_periodics v l es = Done r \/ add_periodics v l es = Thrown r) -> all_events r = all_events es.
Proof.
  intros v l. induction l as [|(var&m) q IH]; intros es r H; cbn [add_periodics] in H.
  - destruct H as [H|H]; [injection H as <-; reflexivity|discriminate].
  - destruct (find_entry (n_id m) es); [auto|].
    destruct (new_periodic v var m) as [[e|]|y|] eqn:NP.
    + rewrite (IH _ _ H). unfold all_events. rewrite flat_map_app. cbn. destruct (new_periodic_ok _ _ _ _ NP) as (_&_&_&->). rewrite !app_nil_r. reflexivity.
    + destruct H as [H|H]; [injection H as <-; reflexivity|discriminate].
    + destruct H as [H|H]; [discriminate|injection H as <-; reflexivity].
    + destruct H; discriminate.
Qed.
Lemma filter_events : forall k f l, (cnt k (all_events (filter f l)) <= cnt k (all_events l))%nat.
Proof.
  intros k f l. induction l as [|e q IH]; [cbn; lia|]. cbn [filter]. destruct (f e); rewrite ?all_cons; lia.
Qed.
Lemma fresh_le : forall u f g, fresh_ids u f -> (forall k, (g k <= f k)%nat) -> fresh_ids u g.
Proof. intros u f g H L k. destruct (H k) as (A&B). specialize (L k). split; [lia|]. intros X. specialize (B X). lia. Qed.

(** * Entries stay in order even if a pass is left by an exception *)
Lemma visit_inv : forall v per uid e, good e ->
  match visit v per true uid e with
  | Stay e1 | Keep e1 _ _ | Leave e1 _ => good e1 /\ u_id e1 = u_id e
  | _ => True
  end.
Proof.
  intros v per uid e G. destruct (u_kind e) eqn:K.
  - destruct (visit_trigger v per uid e G K) as (r&u&l&->&(R&_)&_). destruct r; auto.
  - destruct per.
    + destruct (visit_periodic v true uid e G K) as [(S1&S2)|[(e1&u1&X)|[X|(e1&u1&l1&X&(R&_)&_)]]].
      * rewrite S2. destruct G as (A&B&C). destruct e; unfold good in *; cbn in *. ands; auto. intros X. congruence.
      * rewrite X. unfold visit in X. rewrite K in X. cbn [negb] in X. destruct (negb (wanted v (u_mon e))); [discriminate|].
        assert (D : forall e2 b, due v e = Done (e2, b) \/ due v e = Thrown (e2, b) -> good e2 /\ u_id e2 = u_id e).
        { intros e2 b. unfold due. destruct (n_type (u_mon e)).
          1-3: intros [Y|Y]; [discriminate|injection Y as <- <-; auto].
          - destruct (_ <? _); intros [Y|Y]; try discriminate; injection Y as <- <-; auto;
              destruct G as (A&B&C); destruct e; unfold good in *; cbn in *; ands; auto.
          - destruct (_ <? _); [destruct (next_aligned _ _)|]; intros [Y|Y]; try discriminate; injection Y as <- <-; auto;
              destruct G as (A&B&C); destruct e; unfold good in *; cbn in *; ands; auto. }
        unfold process_meta in X. rewrite K in X. destruct (due v e) as [(e2&b)|(e2&b)|]; [| |discriminate].
        -- destruct b.
           ++ destruct (v_value v (u_var e2)); [destruct (send _ _) as (e3&l3); destruct (should_remove e3); discriminate|].
              injection X as <- <-. apply (D e2 true). auto.
           ++ destruct (send _ _) as (e3&l3); destruct (should_remove e3); discriminate.
        -- injection X as <- <-. apply (D e2 b). auto.
      * rewrite X. auto.
      * rewrite X. auto.
    + unfold visit. rewrite K. cbn [negb]. auto.
Qed.
Definition list_ok (l : list entry) : Prop := NoDup (map u_id l) /\ Forall good l.
Lemma list_ok_replace : forall a e e1 q, list_ok (a ++ e :: q) -> good e1 -> u_id e1 = u_id e -> list_ok (a ++ e1 :: q).
Proof.
  intros a e e1 q (N&G) G1 I. split.
  - rewrite map_app in *. cbn [map] in *. rewrite I. auto.
  - apply Forall_app in G. destruct G as (Ga&Ge). inversion Ge; subst. apply Forall_app. split; auto.
Qed.
Lemma list_ok_remove : forall a e q, list_ok (a ++ e :: q) -> list_ok (a ++ q).
Proof.
  intros a e q (N&G). split.
  - rewrite map_app in *. cbn [map] in *. apply NoDup_remove_1 in N. auto.
  - apply Forall_app in G. destruct G as (Ga&Ge). inversion Ge; subst. apply Forall_app. split; auto.
Qed.
Lemma loop_inv : forall v per n c x, list_ok (l_done c ++ l_todo c) -> loop n v per true c = Some x ->
  match x with Over c1 | Aborted c1 => list_ok (l_done c1 ++ l_todo c1) | Broken => True end.
Proof.
  intros v per n. induction n as [|n IH]; intros [d t uid o] x O H; [discriminate|]. cbn [loop] in H. unfold iterate in H. cbn [l_todo l_uid l_done l_out] in *.
  destruct t as [|e q]; [injection H as <-; auto|].
  assert (Ge : good e) by (destruct O as (_&G); apply Forall_app in G; destruct G as (_&G); inversion G; auto).
  pose proof (visit_inv v per uid e Ge) as V. destruct (visit v per true uid e) as [e1|e1 u1 l|u1 l|e1 u1|].
  - apply IH in H; auto. cbn [l_done l_todo]. apply list_ok_replace with e; tauto.
  - apply IH in H; auto. cbn [l_done l_todo]. rewrite <- app_assoc. cbn [app]. apply list_ok_replace with e; tauto.
  - apply IH in H; auto. cbn [l_done l_todo]. apply list_ok_remove with e; auto.
  - injection H as <-. cbn [l_done l_todo]. apply list_ok_replace with e; tauto.
  - injection H as <-. auto.
Qed.
Lemma add_periodics_inv : forall v l es r, list_ok es -> (add_periodics v l es = Done r \/ add_periodics v l es = Thrown r) -> list_ok r.
Proof.
  intros v l. induction l as [|(var&m) q IH]; intros es r O H; cbn [add_periodics] in H.
  - destruct H as [H|H]; [injection H as <-; auto|discriminate].
  - destruct (find_entry (n_id m) es) eqn:F; [eapply IH; eauto|].
    destruct (new_periodic v var m) as [[e|]|y|] eqn:NP.
    + apply (IH (es ++ [e])); auto. destruct (new_periodic_ok _ _ _ _ NP) as (Ge&Ie&_&_). destruct O as (N&G). split.
      * rewrite map_app. cbn [map]. rewrite Ie. apply find_none in F. apply (NoDup_Add (a := n_id m) (l := map u_id es)); auto.
        rewrite <- (app_nil_r (map u_id es)) at 1. apply Add_app.
      * apply Forall_app; auto.
    + destruct H as [H|H]; [injection H as <-; auto|discriminate].
    + destruct H as [H|H]; [discriminate|injection H as <-; auto].
    + destruct H; discriminate.
Qed.

Lemma put_events : forall e e0 es, NoDup (map u_id es) -> find_entry (u_id e) es = Some e0 -> u_evs e = u_evs e0 ->
  all_events (put_entry e es) = all_events es.
Proof.
  intros e e0 es. induction es as [|x q IH]; intros N F E; [reflexivity|]. inversion N as [|? ? Nx Nq]; subst.
  unfold find_entry, put_entry, all_events in *. cbn [map find flat_map] in *. destruct (u_id x =? u_id e) eqn:X.
  - injection F as ->. rewrite E. f_equal.
    assert (map (fun x => if u_id x =? u_id e then e else x) q = q) as ->; [|reflexivity].
    apply Z.eqb_eq in X. rewrite X in Nx. clear - Nx. induction q as [|y r IH]; [reflexivity|]. cbn [map] in *. cbn [In] in Nx.
    destruct (u_id y =? u_id e) eqn:Y; [apply Z.eqb_eq in Y; exfalso; apply Nx; auto|]. rewrite IH; [reflexivity|]. intros Z. apply Nx. auto.
  - rewrite IH; auto.
Qed.
Lemma mark_evs : forall m e x y, u_evs (mark_triggered m (set_u_prev x (set_u_cur y e))) = u_evs e /\ u_id (mark_triggered m (set_u_prev x (set_u_cur y e))) = u_id e /\
  u_evs (mark_normal m (set_u_prev x (set_u_cur y e))) = u_evs e /\ u_id (mark_normal m (set_u_prev x (set_u_cur y e))) = u_id e.
Proof.
  intros m e x y. unfold mark_triggered, mark_normal, set_clear.
  destruct e as [? ? ? ? ? ? ? ? ? ? cl ? ? ?]; cbn; destruct (is_delta (n_type m)), cl; cbn; auto.
Qed.
Definition whole (p : upd) : Prop := inv p /\ ids_ok p.
Lemma evaluate_whole : forall m var d wo a b p, whole p -> p_status p = Fine ->
  ids_ok (evaluate m var d wo a b p) /\ (p_status (evaluate m var d wo a b p) = Fine -> inv (evaluate m var d wo a b p)).
Proof.
  intros m var d wo a b p (I&O) F. split; [|intros S; apply (evaluate_ok 0 m var d wo a b p I F S)].
  destruct p as [es uid st out]. cbn in F. subst st.
  destruct (is_periodic (n_type m)) eqn:P; [unfold evaluate; rewrite P; auto|].
  destruct (match d with OtherType => true | _ => false end) eqn:ED.
  { destruct d; try discriminate. unfold evaluate. rewrite P. auto. }
  assert (N : d <> OtherType) by (intros ->; discriminate).
  rewrite (evaluate_red m var d wo a b es uid out P N). cbv zeta.
  match goal with |- context [out ++ ?x] => set (l := x) end.
  assert (L : forall k, cnt k (events_sent (out ++ l)) = cnt k (events_sent out)).
  { intros k. rewrite sent_app. assert (events_sent l = []) as ->; [|cbn; lia]. unfold l. destruct (beyond d m a b), d, (n_type m); reflexivity. }
  clearbody l. destruct I as (I1&_). cbn [p_entries] in I1.
  assert (KEY : forall es1, all_events es1 = all_events es -> forall st, ids_ok (Upd es1 uid st (out ++ l))).
  { intros es1 E st k. cbn [p_uid p_out p_entries]. rewrite L, E. apply (O k). }
  set (trig := beyond d m a b). clearbody trig.
  destruct (find_entry (n_id m) es) as [e|] eqn:FE.
  - apply find_some in FE as FE'. destruct FE' as (_&Id1). destruct (mark_evs m e a b) as (M1&M2&M3&M4).
    destruct (u_kind e).
    + apply KEY. apply put_events with e; auto; destruct trig; rewrite ?M1, ?M2, ?M3, ?M4; auto; congruence.
    + destruct (is_delta (n_type m) && negb trig).
      * apply KEY. apply put_events with e; auto; destruct e; cbn in *; congruence.
      * apply KEY. reflexivity.
  - destruct trig; [|apply KEY; reflexivity]. apply KEY. unfold all_events. rewrite flat_map_app. cbn.
    assert (u_evs (mark_triggered m (new_trigger m var wo a b)) = []) as -> by (unfold mark_triggered, new_trigger; destruct (is_delta (n_type m)); reflexivity).
    rewrite !app_nil_r. reflexivity.
Qed.
Lemma process_whole : forall v per p, whole p ->
  ids_ok (process v per true p) /\ (p_status (process v per true p) = Fine -> inv (process v per true p)).
Proof.
  intros v per p (I&O). unfold process. destruct (negb (v_enabled v)); [auto|].
  set (up := if per then update_periodics v (p_entries p) else Done (p_entries p)).
  assert (UP : forall es, up = Done es \/ up = Thrown es -> list_ok es /\ forall k, (cnt k (all_events es) <= cnt k (all_events (p_entries p)))%nat).
  { intros es. unfold up. destruct per.
    - unfold update_periodics. destruct (add_periodics v (flat (v_periodic v)) (p_entries p)) as [es1|es1|] eqn:A.
      + intros [X|X]; [|discriminate]. injection X as <-. pose proof (add_periodics_inv v _ _ es1 I (or_introl A)) as (N&G).
        pose proof (add_periodics_events v _ _ es1 (or_introl A)) as E. split.
        * split; [apply filter_nodup; auto|]. apply Forall_forall. intros x X. apply filter_In in X. apply (proj1 (Forall_forall _ _) G). tauto.
        * intros k. rewrite <- E. apply filter_events.
      + intros [X|X]; [discriminate|]. injection X as <-. split; [apply (add_periodics_inv v _ _ es1 I (or_intror A))|].
        intros k. rewrite (add_periodics_events v _ _ es1 (or_intror A)). lia.
      + intros [X|X]; discriminate.
    - intros [X|X]; [|discriminate]. injection X as <-. split; [exact I|]. intros; lia. }
  destruct up as [es|es|].
  - destruct (UP es (or_introl eq_refl)) as (OK&LE).
    destruct (loop (S (length es)) v per true (Cur [] es (p_uid p) [])) as [[c|c|]|] eqn:LP; try (split; [exact O|discriminate]).
    + destruct (loop_grows _ _ _ _ _ LP) as (G&T). pose proof (loop_inv v per _ (Cur [] es (p_uid p) []) _ OK LP) as OK1. cbn beta iota in OK1. rewrite T, app_nil_r in OK1. split; [|intros _; exact OK1].
      apply (grows_ok (p_uid p) (l_uid c) (fun k => cnt k (events_sent (p_out p)) + cnt k (all_events es))%nat).
      * apply (fresh_le _ _ _ O). intros k. specialize (LE k). lia.
      * destruct G as (G1&G2). split; auto. intros k. specialize (G2 k). unfold cur_cnt in G2. cbn [l_uid l_out l_done l_todo app p_out p_entries] in *.
        rewrite T, app_nil_r in G2. rewrite sent_app. cbn [events_sent flat_map cnt map count_occ] in G2. lia.
    + destruct (loop_grows _ _ _ _ _ LP) as (G&_). pose proof (loop_inv v per _ (Cur [] es (p_uid p) []) _ OK LP) as OK1. split; [|intros _; exact OK1].
      apply (grows_ok (p_uid p) (l_uid c) (fun k => cnt k (events_sent (p_out p)) + cnt k (all_events es))%nat).
      * apply (fresh_le _ _ _ O). intros k. specialize (LE k). lia.
      * destruct G as (G1&G2). split; auto. intros k. specialize (G2 k). unfold cur_cnt in G2. cbn [l_uid l_out l_done l_todo app p_out p_entries] in *.
        rewrite !sent_app. cbn [events_sent flat_map app cnt map count_occ] in *. lia.
  - destruct (UP es (or_intror eq_refl)) as (OK&LE). split; [|intros _; exact OK].
    apply (fresh_le _ _ _ O). intros k. specialize (LE k). cbn [add_out set_entries p_out p_entries]. rewrite sent_app. cbn. lia.
  - split; [exact O|discriminate].
Qed.
Lemma step_whole : forall p o, (p_status p = Fine -> inv p) -> ids_ok p -> ids_ok (step p o) /\ (p_status (step p o) = Fine -> inv (step p o)).
Proof.
  intros p o I O. unfold step. destruct (p_status p) eqn:F; [|split; auto; congruence|split; auto; congruence]. specialize (I eq_refl).
  destruct o as [ms var d actual wo a b|m var d wo b|v|v].
  - unfold on_changed. destruct actual; [|split; auto]. revert p I O F.
    assert (ST : forall ms p, p_status p <> Fine -> fold_left (fun p m => match p_status p with Fine => evaluate m var d wo a b p | _ => p end) ms p = p).
    { induction ms0 as [|m q IH]; intros p S; cbn [fold_left]; [reflexivity|]. destruct (p_status p) eqn:X; [congruence| |]; apply IH; congruence. }
    induction ms as [|m q IH]; intros p I O F; cbn [fold_left]; [split; auto|]. rewrite F.
    destruct (evaluate_whole m var d wo a b p (conj I O) F) as (E1&E2).
    destruct (p_status (evaluate m var d wo a b p)) eqn:S; [apply IH; auto| |]; rewrite ST by congruence; split; auto; congruence.
  - unfold on_updated. destruct (find_entry (n_id m) (p_entries p)) as [e|] eqn:FE; [|split; auto].
    apply find_some in FE as FE'. destruct FE' as (In1&Id1). 
    set (p1 := set_entries (put_entry (set_u_mon m e) (p_entries p)) p).
    assert (W1 : whole p1).
    { split; [split|].
      - cbn [p1 set_entries p_entries]. rewrite put_ids. apply I.
      - apply put_good; [|apply I]. apply updated_good; auto. apply (proj1 (Forall_forall _ _) (proj2 I) e In1).
      - intros k. cbn [p1 set_entries p_entries p_uid p_out]. rewrite (put_events (set_u_mon m e) e); [apply (O k)|apply I| |destruct e; reflexivity].
        assert (u_id (set_u_mon m e) = n_id m) as -> by (destruct e; cbn in *; auto). auto. }
    assert (F1 : p_status p1 = Fine) by exact F. clearbody p1.
    destruct (n_type m); try (split; [apply W1|intros _; apply W1]); apply (evaluate_whole m var d wo b b p1 W1 F1).
  - apply process_whole. split; auto.
  - apply process_whole. split; auto.
Qed.
Lemma run_whole : forall h p, (p_status p = Fine -> inv p) -> ids_ok p -> ids_ok (run p h) /\ (p_status (run p h) = Fine -> inv (run p h)).
Proof.
  induction h as [|o h IH]; intros p I O; [split; auto|]. destruct (step_whole p o I O). cbn. apply IH; auto.
Qed.
Lemma ids_distinct : forall h, NoDup (map e_id (events_sent (p_out (run init h)))).
Proof.
  intros h. destruct (run_whole h init) as (O&_).
  - intros _. apply inv_init.
  - intros k. cbn. split; auto.
  - apply (NoDup_count_occ Z.eq_dec). intros k. destruct (O k) as (A&_). unfold cnt in A at 1. lia.
Qed.
