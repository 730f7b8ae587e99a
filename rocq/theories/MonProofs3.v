(** Proofs about the monitoring updater: the loop of a pass, calls and histories. *)
From Coq Require Import ZArith List Bool Lia.
From Verif Require Import MonModel MonSpec MonProofs MonProofs2.
Import ListNotations.
Local Open Scope Z_scope.

(** * Entries at which the iterator stays *)
Definition stuck (v : env) (per : bool) (e : entry) : Prop :=
  u_kind e = KPeriodic /\ (per = false \/ wanted v (u_mon e) = false).
Lemma visit_stuck : forall v per uid e, stuck v per e -> exists e1, visit v per true uid e = Stay e1 /\ stuck v per e1.
Proof.
  intros v per uid e (K&S). unfold visit. rewrite K. destruct per; cbn [negb].
  - destruct S as [S|S]; [discriminate|]. rewrite S. cbn [negb]. eexists. split; [reflexivity|].
    destruct e; split; cbn in *; auto.
  - eexists. split; [reflexivity|]. split; auto.
Qed.
Lemma stay_forever : forall v per n d e q uid o, stuck v per e -> loop n v per true (Cur d (e :: q) uid o) = None.
Proof.
  intros v per n. induction n as [|n IH]; intros d e q uid o S; [reflexivity|]. cbn [loop]. unfold iterate. cbn [l_todo l_uid].
  destruct (visit_stuck v per uid e S) as (e1&->&S1). apply IH. auto.
Qed.
Lemma visit_stay : forall v per uid e e1, visit v per true uid e = Stay e1 -> stuck v per e.
Proof.
  intros v per uid e e1 H. unfold visit in H. unfold stuck. destruct (u_kind e) eqn:K; cbn [negb] in H.
  - destruct (negb (wanted v (u_mon e))); [discriminate|]. destruct (process_meta v uid e) as [(a&b)|(a&b)|]; try discriminate.
    destruct (send v a) as (c&d). destruct (should_remove c); discriminate.
  - split; auto. destruct per; auto. right. cbn [negb] in H. destruct (wanted v (u_mon e)); auto. cbn [negb] in H.
    destruct (process_meta v uid e) as [(a&b)|(a&b)|]; try discriminate.
    destruct (send v a) as (c&d). destruct (should_remove c); discriminate.
Qed.

(** * The loop *)
Lemma life_cons : forall i e q, life_of i (e :: q) = if u_id e =? i then abs e else life_of i q.
Proof. intros. unfold life_of, find_entry. cbn [find]. destruct (u_id e =? i); reflexivity. Qed.
Lemma life_idle : forall i l, ~ In i (map u_id l) -> life_of i l = Idle.
Proof. intros i l H. unfold life_of. apply find_none in H. rewrite H. reflexivity. Qed.
Lemma life_app : forall i a b, life_of i (a ++ b) = match find_entry i a with Some e => abs e | None => life_of i b end.
Proof. intros. unfold life_of. rewrite find_app. destruct (find_entry i a); reflexivity. Qed.

Lemma loop_over : forall v per todo n d uid o c, Forall good todo -> NoDup (map u_id todo) ->
  loop n v per true (Cur d todo uid o) = Some (Over c) ->
  exists rest l, l_done c = d ++ rest /\ l_out c = o ++ l /\ Forall good rest /\ NoDup (map u_id rest) /\
    incl (map u_id rest) (map u_id todo) /\ ~ In OThrow l /\
    forall i, pass v (life_of i todo) = (life_of i rest, shown i l).
Proof.
  intros v per todo. induction todo as [|e q IH]; intros n d uid o c G N H.
  - destruct n; [discriminate|]. cbn in H. injection H as <-. exists [], []. rewrite !app_nil_r. cbn. ands; auto. intros x; auto.
  - destruct n as [|n]; [discriminate|]. cbn [loop] in H. unfold iterate in H. cbn [l_todo l_uid l_done l_out] in H.
    inversion G as [|? ? Ge Gq]; subst. cbn [map] in N. inversion N as [|? ? Ne Nq]; subst.
    assert (STEP : exists r uid1 l1, visit v per true uid e = match r with Some e1 => Keep e1 uid1 l1 | None => Erase uid1 l1 end /\ result_ok v e r l1).
    { destruct (u_kind e) eqn:K.
      - destruct (visit_trigger v per uid e Ge K) as (r&uid1&l1&E&R&_). eauto.
      - destruct per.
        + destruct (visit_periodic v true uid e Ge K) as [(S1&S2)|[(e1&u1&S)|[S|(e1&u1&l1&S&R&_)]]].
          * rewrite S2 in H. rewrite stay_forever in H; [discriminate|]. destruct e; split; cbn in *; auto.
          * rewrite S in H. discriminate.
          * rewrite S in H. discriminate.
          * exists (Some e1), u1, l1. auto.
        + destruct (visit_stuck v false uid e (conj K (or_introl eq_refl))) as (e1&S&S1). rewrite S in H.
          rewrite stay_forever in H by auto. discriminate. }
    destruct STEP as (r&uid1&l1&E&R1&R2&R3&R4). rewrite E in H.
    assert (H' : loop n v per true (Cur (d ++ match r with Some e1 => [e1] | None => [] end) q uid1 (o ++ l1)) = Some (Over c)).
    { destruct r; auto. rewrite app_nil_r. auto. }
    clear H E. destruct (IH _ _ _ _ _ Gq Nq H') as (rest&l&E1&E2&G1&N1&I1&T1&P1).
    exists (match r with Some e1 => [e1] | None => [] end ++ rest), (l1 ++ l).
    rewrite !app_assoc. ands; auto.
    + apply Forall_app. split; auto. destruct r; auto. constructor; auto. tauto.
    + destruct r as [e1|]; auto. cbn [app map]. constructor; auto. destruct R1 as (_&->). intros X. apply Ne. apply I1. auto.
    + intros x X. destruct r as [e1|]; cbn [app map] in *; [|right; auto]. destruct R1 as (_&R1). rewrite R1 in X.
      destruct X as [X|X]; [left|right]; auto.
    + intros X. apply in_app_or in X. tauto.
    + intros i. rewrite shown_app, life_cons, life_app. specialize (P1 i). destruct (u_id e =? i) eqn:EI.
      * apply Z.eqb_eq in EI. subst i. rewrite (life_idle _ _ Ne) in P1. cbn [pass] in P1. injection P1 as P2 P3.
        rewrite <- P3, app_nil_r, R3. f_equal. destruct r as [e1|]; cbn; [|auto].
        destruct R1 as (_&->). rewrite Z.eqb_refl. reflexivity.
      * apply Z.eqb_neq in EI. rewrite R4 by congruence. cbn [app]. rewrite P1. f_equal.
        destruct r as [e1|]; cbn; [|auto]. destruct R1 as (_&->). apply Z.eqb_neq in EI. rewrite EI. reflexivity.
Qed.

(** * Periodic monitors appear and disappear *)
Definition fresh (v : env) (x : Z * monitor) : timed :=
  match n_type (snd x) with
  | Periodic => T (snd x) (fst x) (v_steady v) 0 []
  | _ => T (snd x) (fst x) 0 (next_point (v_clock v) (n_value (snd x))) []
  end.
Lemma new_periodic_ok : forall v var m e, new_periodic v var m = Done (Some e) ->
  good e /\ u_id e = n_id m /\ abs e = Timing (fresh v (var, m)) /\ u_evs e = [].
Proof.
  intros v var m e H. unfold new_periodic in H. unfold fresh. cbn [fst snd]. destruct (n_type m); try discriminate.
  - injection H as <-. cbn. ands; auto. unfold good. cbn. ands; auto; discriminate.
  - destruct (Z.eq_dec (n_value m) 0) as [Y|Y]; [rewrite Y in H; discriminate|].
    rewrite (next_point_eq _ _ Y) in H. injection H as <-. cbn. ands; auto. unfold good. cbn. ands; auto; discriminate.
Qed.
Lemma add_periodics_ok : forall v l es r, Forall good es -> NoDup (map u_id es) -> add_periodics v l es = Done r ->
  Forall good r /\ NoDup (map u_id r) /\
  forall i, life_of i r = match find_entry i es, find (fun x => n_id (snd x) =? i) l with
                          | None, Some x => Timing (fresh v x) | _, _ => life_of i es end.
Proof.
  intros v l. induction l as [|(var&m) q IH]; intros es r G N H.
  - injection H as <-. ands; auto. intros i. cbn [find]. destruct (find_entry i es); auto.
  - cbn [add_periodics] in H. destruct (find_entry (n_id m) es) as [e0|] eqn:F.
    + destruct (IH _ _ G N H) as (A&B&C). ands; auto. intros i. rewrite C. cbn [find fst snd].
      destruct (n_id m =? i) eqn:EI; auto. apply Z.eqb_eq in EI. subst i. rewrite F. auto.
    + destruct (new_periodic v var m) as [[e|]|x|] eqn:NP; try discriminate.
      2:{ unfold new_periodic in NP. destruct (n_type m); try discriminate. destruct (next_aligned _ _); discriminate. }
      destruct (new_periodic_ok _ _ _ _ NP) as (Ge&Ie&Ae&_).
      assert (N1 : NoDup (map u_id (es ++ [e]))).
      { rewrite map_app. cbn [map]. rewrite Ie. apply find_none in F. apply (NoDup_Add (a := n_id m) (l := map u_id es)); auto.
        rewrite <- (app_nil_r (map u_id es)) at 1. apply Add_app. }
      destruct (IH (es ++ [e]) r) as (A&B&C); auto.
      { apply Forall_app; auto. }
      ands; auto. intros i. rewrite C, life_app, find_app. cbn [find fst snd].
      assert (Fe : find_entry i [e] = if n_id m =? i then Some e else None) by (unfold find_entry; cbn [find]; rewrite Ie; reflexivity).
      assert (Le : life_of i [e] = if n_id m =? i then Timing (fresh v (var, m)) else Idle).
      { unfold life_of. rewrite Fe. destruct (n_id m =? i); auto. }
      rewrite Fe, Le. unfold life_of. destruct (find_entry i es) eqn:Fi; [reflexivity|].
      destruct (n_id m =? i); reflexivity.
Qed.
Lemma life_filter : forall i f l, NoDup (map u_id l) ->
  life_of i (filter f l) = match find_entry i l with Some e => if f e then abs e else Idle | None => Idle end.
Proof.
  intros i f l N. induction l as [|e q IH]; [reflexivity|]. inversion N as [|? ? Ne Nq]; subst. specialize (IH Nq).
  unfold find_entry in *. cbn [filter find]. destruct (u_id e =? i) eqn:EI.
  - destruct (f e).
    + rewrite life_cons, EI. reflexivity.
    + apply Z.eqb_eq in EI. subst i. rewrite IH. apply find_none in Ne. unfold find_entry in Ne. rewrite Ne. reflexivity.
  - destruct (f e); auto. rewrite life_cons, EI. auto.
Qed.
Lemma filter_nodup : forall f (l : list entry), NoDup (map u_id l) -> NoDup (map u_id (filter f l)).
Proof.
  intros f l. induction l as [|e q IH]; intros N; [constructor|]. inversion N as [|? ? Ne Nq]; subst. cbn [filter].
  destruct (f e); auto. cbn [map]. constructor; auto. intros X. apply Ne. apply in_map_iff in X. destruct X as (x&X1&X2).
  apply filter_In in X2. apply in_map_iff. exists x. tauto.
Qed.
Lemma find_existsb : forall {A} f (l : list A), existsb f l = match find f l with Some _ => true | None => false end.
Proof. intros A f l. induction l as [|x q IH]; [reflexivity|]. cbn. destruct (f x); auto. Qed.

Lemma update_periodics_ok : forall v es r, Forall good es -> NoDup (map u_id es) -> update_periodics v es = Done r ->
  Forall good r /\ NoDup (map u_id r) /\ forall i, life_of i r = appear v i (life_of i es).
Proof.
  intros v es r G N H. unfold update_periodics in H. destruct (add_periodics v (flat (v_periodic v)) es) as [es1|x|] eqn:A; try discriminate.
  injection H as <-. destruct (add_periodics_ok _ _ _ _ G N A) as (G1&N1&L). ands.
  - apply Forall_forall. intros x X. apply filter_In in X. apply (proj1 (Forall_forall _ _) G1). tauto.
  - apply filter_nodup. auto.
  - intros i. rewrite (life_filter i _ _ N1). specialize (L i).
    assert (C : configured v i = find (fun x => n_id (snd x) =? i) (flat (v_periodic v))) by reflexivity.
    set (l := flat (v_periodic v)) in *. 
    assert (ST : forall e, u_id e = i -> still_there l e = match u_kind e with KTrigger => true | KPeriodic => match configured v i with Some _ => true | None => false end end).
    { intros e E. unfold still_there. destruct (u_kind e); auto. rewrite find_existsb, E, C. reflexivity. }
    unfold life_of in L |- *. destruct (find_entry i es1) as [e1|] eqn:F1.
    + apply find_some in F1 as F2. destruct F2 as (_&F2). rewrite (ST e1 F2). unfold appear. rewrite C. rewrite L. 
      destruct (find_entry i es) as [e|] eqn:F.
      * unfold abs in *. destruct (u_kind e1), (u_kind e); try discriminate L; auto.
        destruct (find _ l) as [(a&b)|]; auto.
      * destruct (find _ l) as [(a&b)|] eqn:FL.
        -- unfold abs in L. destruct (u_kind e1); [discriminate|]. unfold fresh. cbn [fst snd]. reflexivity.
        -- exfalso. unfold abs in L. destruct (u_kind e1); discriminate.
    + rewrite C in *. unfold appear. rewrite C. destruct (find_entry i es) as [e|] eqn:F.
      * exfalso. unfold abs in L. destruct (u_kind e); discriminate L.
      * destruct (find _ l) as [(a&b)|] eqn:FL; [discriminate L|]. reflexivity.
Qed.

(** * A pass *)
Lemma process_ok : forall v per p, inv p -> p_status p = Fine -> p_status (process v per true p) = Fine ->
  (forall l, p_out (process v per true p) = p_out p ++ l -> ~ In OThrow l) ->
  inv (process v per true p) /\
  exists l, p_out (process v per true p) = p_out p ++ l /\
    forall i, (if v_enabled v then pass v (if per then appear v i (life_of i (p_entries p)) else life_of i (p_entries p))
               else (life_of i (p_entries p), [])) = (life_of i (p_entries (process v per true p)), shown i l).
Proof.
  intros v per p (I1&I2) F. unfold process. destruct (v_enabled v); cbn [negb].
  2:{ intros _ _. split; [split; auto|]. exists []. rewrite app_nil_r. auto. }
  set (up := if per then update_periodics v (p_entries p) else Done (p_entries p)).
  assert (UP : forall r, up = Done r -> Forall good r /\ NoDup (map u_id r) /\
    forall i, life_of i r = if per then appear v i (life_of i (p_entries p)) else life_of i (p_entries p)).
  { intros r E. unfold up in E. destruct per; [apply update_periodics_ok; auto|]. injection E as <-. auto. }
  destruct up as [es|es|].
  2:{ intros _ T. exfalso. apply (T [OThrow]); [reflexivity|left; reflexivity]. }
  2:{ discriminate. }
  destruct (UP es eq_refl) as (G&N&L). 
  destruct (loop (S (length es)) v per true (Cur [] es (p_uid p) [])) as [[c|c|]|] eqn:LP; try discriminate.
  2:{ intros _ T. exfalso. apply (T (l_out c ++ [OThrow])); [reflexivity|]. apply in_or_app. right. left. reflexivity. }
  intros _ _. destruct (loop_over _ _ _ _ _ _ _ _ G N LP) as (rest&l&E1&E2&G1&N1&_&_&P).
  cbn [app] in E1, E2. rewrite E1, E2. cbn [p_entries p_out]. split; [split; auto|]. exists l. split; auto.
  intros i. rewrite <- L. apply P.
Qed.

(** * Calls *)
Lemma on_changed_ok : forall i var d wo a b ms p, inv p -> p_status p = Fine ->
  p_status (fold_left (fun p m => match p_status p with Fine => evaluate m var d wo a b p | _ => p end) ms p) = Fine ->
  let p1 := fold_left (fun p m => match p_status p with Fine => evaluate m var d wo a b p | _ => p end) ms p in
  inv p1 /\ exists l, p_out p1 = p_out p ++ l /\ 
    look_all i ms var d wo a b (life_of i (p_entries p)) = (life_of i (p_entries p1), shown i l).
Proof.
  intros i var d wo a b ms. induction ms as [|m q IH]; intros p I F H.
  - cbn. split; auto. exists []. rewrite app_nil_r. auto.
  - cbn [fold_left] in *. rewrite F in *. cbv zeta in *.
    destruct (p_status (evaluate m var d wo a b p)) eqn:S.
    + destruct (evaluate_ok i m var d wo a b p I F S) as (I1&_&l1&E1&_&_&L1).
      destruct (IH _ I1 S H) as (I2&l2&E2&L2). split; auto. exists (l1 ++ l2). rewrite E2, E1, app_assoc. split; auto.
      cbn [look_all]. rewrite L1, L2, shown_app. reflexivity.
    + exfalso. revert H. clear - S. generalize dependent (evaluate m var d wo a b p). induction q as [|x q IH]; intros r S; cbn [fold_left]; [congruence|].
      rewrite S. apply IH. auto.
    + exfalso. revert H. clear - S. generalize dependent (evaluate m var d wo a b p). induction q as [|x q IH]; intros r S; cbn [fold_left]; [congruence|].
      rewrite S. apply IH. auto.
Qed.
Lemma updated_good : forall m e, good e -> n_id m = u_id e -> good (set_u_mon m e).
Proof. intros m e (A&B&C) E. destruct e; unfold good in *; cbn in *. ands; auto. Qed.
Lemma on_updated_ok : forall i m var d wo b p, inv p -> p_status p = Fine -> p_status (on_updated m var d wo b p) = Fine ->
  inv (on_updated m var d wo b p) /\ exists l, p_out (on_updated m var d wo b p) = p_out p ++ l /\
    life_step i (life_of i (p_entries p)) (OUpdate m var d wo b) = (life_of i (p_entries (on_updated m var d wo b p)), shown i l).
Proof.
  intros i m var d wo b p (I1&I2) F. unfold on_updated. cbn [life_step].
  destruct (find_entry (n_id m) (p_entries p)) as [e|] eqn:FE.
  2:{ intros _. split; [split; auto|]. exists []. rewrite app_nil_r. split; auto. destruct (n_id m =? i) eqn:EI; auto.
      apply Z.eqb_eq in EI. subst i. unfold life_of. rewrite FE. reflexivity. }
  apply find_some in FE as FE'. destruct FE' as (In1&Id1). pose proof (proj1 (Forall_forall _ _) I2 e In1) as Ge.
  set (p1 := set_entries (put_entry (set_u_mon m e) (p_entries p)) p).
  assert (V1 : inv p1).
  { split; cbn [p1 set_entries p_entries]; [rewrite put_ids; auto|apply put_good; auto]. apply updated_good; auto. }
  assert (L1 : life_of i (p_entries p1) = if n_id m =? i then change_setting m (life_of i (p_entries p)) else life_of i (p_entries p)).
  { unfold life_of. cbn [p1 set_entries p_entries]. rewrite find_put.
    assert (u_id (set_u_mon m e) = n_id m) as -> by (destruct e; cbn in *; auto).
    destruct (n_id m =? i) eqn:EI; auto. apply Z.eqb_eq in EI. subst i. rewrite FE. destruct e as [k ? ? ? ? ? ? ? ? ? ? ? ? ?]; destruct k; reflexivity. }
  assert (NI : n_id m =? i = true -> forall A (x y z : A), match life_of i (p_entries p) with Idle => x | Watching _ => y | Timing _ => y end = y).
  { intros EI A x y z. apply Z.eqb_eq in EI. subst i. unfold life_of. rewrite FE. unfold abs. destruct (u_kind e); reflexivity. }
  assert (OUT : p_out p1 = p_out p) by reflexivity.
  assert (ST : p_status p1 = Fine) by exact F.
  clearbody p1.
  assert (EV : threshold (n_type m) = true -> p_status (evaluate m var d wo b b p1) = Fine ->
    inv (evaluate m var d wo b b p1) /\ exists l, p_out (evaluate m var d wo b b p1) = p_out p ++ l /\
    (if n_id m =? i then match life_of i (p_entries p) with Idle => (Idle, []) | _ => if threshold (n_type m) then look m var d wo b b (change_setting m (life_of i (p_entries p))) else (change_setting m (life_of i (p_entries p)), []) end else (life_of i (p_entries p), []))
     = (life_of i (p_entries (evaluate m var d wo b b p1)), shown i l)).
  { intros T S. destruct (evaluate_ok i m var d wo b b p1 V1 ST S) as (I3&_&l&E3&_&_&L3). split; auto. exists l. rewrite E3, OUT. split; auto.
    rewrite <- L3, T, L1. destruct (n_id m =? i) eqn:EI; auto. rewrite (NI eq_refl _ _ _ (Idle, [])). reflexivity. }
  assert (NE : threshold (n_type m) = false -> inv p1 /\ exists l, p_out p1 = p_out p ++ l /\
    (if n_id m =? i then match life_of i (p_entries p) with Idle => (Idle, []) | _ => if threshold (n_type m) then look m var d wo b b (change_setting m (life_of i (p_entries p))) else (change_setting m (life_of i (p_entries p)), []) end else (life_of i (p_entries p), []))
     = (life_of i (p_entries p1), shown i l)).
  { intros T. split; auto. exists []. rewrite OUT, app_nil_r. split; auto. rewrite T, L1. destruct (n_id m =? i) eqn:EI; auto.
    rewrite (NI eq_refl _ _ _ (Idle, [])). reflexivity. }
  destruct (n_type m); intros S; first [apply NE; reflexivity | apply EV; auto].
Qed.

Lemma step_out : forall p o, exists l, p_out (step p o) = p_out p ++ l.
Proof.
  assert (N : forall p, exists l, p_out p = p_out p ++ l) by (intros p; exists []; rewrite app_nil_r; reflexivity).
  assert (EV : forall m var d wo a b p, exists l, p_out (evaluate m var d wo a b p) = p_out p ++ l).
  { intros m var d wo a b [es uid st out]. unfold evaluate. destruct (is_periodic (n_type m)); [apply N|]. destruct d; [| |apply N].
    all: destruct (_ && _ && _); cbn [add_out p_entries];
      (destruct (find_entry (n_id m) es) as [e|]; [destruct (u_kind e)|]); try destruct (is_delta (n_type m) && _); try destruct (triggers _ m a b);
      cbn [set_entries set_status add_out p_out]; try (eexists; reflexivity); exists []; rewrite app_nil_r; reflexivity. }
  assert (PR : forall v per p, exists l, p_out (process v per true p) = p_out p ++ l).
  { intros v per p. unfold process. destruct (negb _); [apply N|]. destruct (if per then _ else _) as [es|es|].
    - destruct (loop _ _ _ _ _) as [[c|c|]|]; cbn [set_status p_out]; try (eexists; reflexivity); exact (N p).
    - eexists; reflexivity.
    - exact (N p). }
  intros p o. unfold step. destruct (p_status p); [|apply N|apply N]. destruct o; auto.
  - unfold on_changed. destruct actual; [|apply N]. revert p. induction ms as [|m q IH]; intros p; cbn [fold_left]; [apply N|].
    match goal with |- context [fold_left ?f q ?x] => destruct (IH x) as (l2&E2) end. rewrite E2.
    destruct (p_status p); [|eexists; reflexivity|eexists; reflexivity].
    destruct (EV m var d wo prev cur p) as (l1&E1). rewrite E1, <- app_assoc. eexists. reflexivity.
  - unfold on_updated. destruct (find_entry (n_id m) (p_entries p)); [|apply N].
    destruct (n_type m); try exact (N p); destruct (EV m var d wo cur cur (set_entries (put_entry (set_u_mon m e) (p_entries p)) p)) as (l1&E1);
      rewrite E1; eexists; reflexivity.
Qed.
Lemma run_out : forall h p, exists l, p_out (run p h) = p_out p ++ l.
Proof.
  induction h as [|o h IH]; intros p; cbn; [exists []; rewrite app_nil_r; reflexivity|].
  destruct (step_out p o) as (l1&E1). destruct (IH (step p o)) as (l2&E2). unfold run in E2. rewrite E2, E1, <- app_assoc. eexists. reflexivity.
Qed.
Lemma stopped : forall h p, p_status p <> Fine -> run p h = p.
Proof.
  induction h as [|o h IH]; intros p H; [reflexivity|]. cbn. unfold run in IH. unfold step at 2.
  destruct (p_status p) eqn:S; [congruence| |]; apply IH; congruence.
Qed.

Lemma step_ok : forall i p o, inv p -> p_status p = Fine -> p_status (step p o) = Fine -> ~ In OThrow (p_out (step p o)) ->
  inv (step p o) /\ exists l, p_out (step p o) = p_out p ++ l /\
    life_step i (life_of i (p_entries p)) o = (life_of i (p_entries (step p o)), shown i l).
Proof.
  intros i p o I F. unfold step. rewrite F. destruct o as [ms var d actual wo a b|m var d wo b|v|v]; intros S T.
  - unfold on_changed in *. cbn [life_step]. destruct actual.
    + apply (on_changed_ok i); auto.
    + split; auto. exists []. rewrite app_nil_r. auto.
  - apply on_updated_ok; auto.
  - destruct (process_ok v true p I F S) as (I1&l&E&L).
    { intros l E X. apply T. rewrite E. apply in_or_app. auto. }
    split; auto. exists l. split; auto. cbn [life_step]. rewrite <- L. reflexivity.
  - destruct (process_ok v false p I F S) as (I1&l&E&L).
    { intros l E X. apply T. rewrite E. apply in_or_app. auto. }
    split; auto. exists l. split; auto. cbn [life_step]. rewrite <- L. reflexivity.
Qed.
Lemma run_ok : forall i h p, inv p -> p_status p = Fine -> p_status (run p h) = Fine -> ~ In OThrow (p_out (run p h)) ->
  inv (run p h) /\ exists l, p_out (run p h) = p_out p ++ l /\
    life_run i (life_of i (p_entries p)) h = (life_of i (p_entries (run p h)), shown i l).
Proof.
  intros i h. induction h as [|o h IH]; intros p I F S T.
  - cbn. split; auto. exists []. rewrite app_nil_r. auto.
  - cbn [run fold_left] in *. fold (run (step p o) h) in *.
    assert (F1 : p_status (step p o) = Fine).
    { destruct (p_status (step p o)) eqn:X; auto; rewrite stopped in S; congruence. }
    assert (T1 : ~ In OThrow (p_out (step p o))).
    { intros X. apply T. destruct (run_out h (step p o)) as (l&->). apply in_or_app. auto. }
    destruct (step_ok i p o I F F1 T1) as (I1&l1&E1&L1). destruct (IH _ I1 F1 S T) as (I2&l2&E2&L2).
    split; auto. exists (l1 ++ l2). rewrite E2, E1, app_assoc. split; auto. cbn [life_run]. rewrite L1, L2, shown_app. reflexivity.
Qed.
Lemma inv_init : inv init.
Proof. split; constructor. Qed.
