From Coq Require Import ZArith NArith List Bool Lia Sorting.Sorted.
From Verif Require Import T16Model T16Spec T16Proofs T16Proofs2 T16Proofs3.
Import ListNotations.
Local Open Scope Z_scope.

(** ** Restart *)
Lemma pushed_app : forall a b, pushed (a ++ b) = pushed a ++ pushed b.
Proof. intros. apply flat_map_app. Qed.
Lemma closing_eq : forall w, closing w = BStop (w_tid w) (clamp32 (s_wh (match w_end w with Some e => e | None => w_last w end))) (s_time (match w_end w with Some e => e | None => w_last w end)) PowerLoss None.
Proof. reflexivity. Qed.
Lemma stop_queued_app : forall i s p, existsb (fun p => match p_body p with BStop j _ _ _ _ => j =? i | _ => false end) (q s ++ [p])
  = stop_queued i s || match p_body p with BStop j _ _ _ _ => j =? i | _ => false end.
Proof. intros. unfold stop_queued. rewrite existsb_app. cbn. now rewrite orb_false_r. Qed.
Definition resumed (w : row) : tx := Tx (-1) (w_conn w) (w_sess w) (w_tag w) (w_start w) (w_resv w) true false None (Some (w_tid w)) (w_smid w) (w_emid w) false.
Definition closes (R : list N) (s : st) (w : row) : bool := negb (stop_queued (w_tid w) s) && negb (existsb (N.eqb (w_sess w)) R).
Lemma resume_row_eq : forall R w s s' o, resume_row R w s = (s', o) ->
  pushed o = (if closes R s w then [closing w] else [])
  /\ q s' = q s ++ (if closes R s w then [P (nid s) (closing w) (nid s) (closing w)] else [])
  /\ (forall c, act s' c = if c =? w_conn w then (if negb (stop_queued (w_tid w) s) && existsb (N.eqb (w_sess w)) R then Some (resumed w) else None) else act s c)
  /\ n s' = n s /\ avdb s' = avdb s /\ dead s' = dead s /\ avq s' = avq s.
Proof.
  intros R w s s' o H. unfold resume_row in H. unfold closes. change (stop_queued (w_tid w) (set_act s _)) with (stop_queued (w_tid w) s) in H.
  destruct (stop_queued (w_tid w) s); cbn [negb andb].
  - inversion H; subst. cbn [q act n avdb dead avq set_stopped set_act pushed flat_map]. rewrite app_nil_r. repeat split.
    intros c. unfold upd. destruct (c =? w_conn w); auto.
  - destruct (existsb (N.eqb (w_sess w)) R); cbn [negb andb].
    + inversion H; subst. cbn [q act n avdb dead avq set_stopped set_act pushed flat_map]. rewrite app_nil_r. repeat split.
    + unfold stop_transaction, push in H. inversion H; subst. repeat split. intros c. cbn. unfold upd. destruct (c =? w_conn w); auto.
Qed.
Lemma resume_rows_eq : forall R l s s' o, resume_rows R l s = (s', o) -> NoDup (map w_tid l) ->
  pushed o = map closing (filter (closes R s) l) /\ n s' = n s /\ avdb s' = avdb s /\ dead s' = dead s /\ avq s' = avq s
  /\ (forall c, (forall w, In w l -> w_conn w <> c) -> act s' c = act s c)
  /\ (forall l1 w l2, l = l1 ++ w :: l2 -> (forall v, In v l2 -> w_conn v <> w_conn w) ->
        act s' (w_conn w) = if negb (stop_queued (w_tid w) s) && existsb (N.eqb (w_sess w)) R then Some (resumed w) else None).
Proof.
  intros R. induction l as [ | w l IH ]; intros s s' o H ND.
  - inversion H; subst. repeat split; auto. intros l1 w l2 X. destruct l1; discriminate.
  - cbn [resume_rows] in H. destruct (resume_row R w s) as [s1 o1] eqn:E1. destruct (resume_rows R l s1) as [s2 o2] eqn:E2. inversion H; subst.
    apply resume_row_eq in E1 as (A1 & A2 & A3 & A4 & A5 & A6 & A7). cbn [map] in ND. inversion ND; subst.
    destruct (IH _ _ _ E2 H3) as (B1 & B2 & B3 & B4 & B4' & B5 & B6).
    assert (SQ : forall v, In v l -> stop_queued (w_tid v) s1 = stop_queued (w_tid v) s).
    { intros v V. unfold stop_queued. rewrite A2. destruct (closes R s w).
      - rewrite stop_queued_app. cbn [p_body closing]. destruct (Z.eqb_spec (w_tid w) (w_tid v)) as [E | E].
        + exfalso. apply H2. rewrite E. now apply in_map.
        + now rewrite orb_false_r.
      - now rewrite app_nil_r. }
    assert (CL : forall v, In v l -> closes R s1 v = closes R s v) by (intros v V; unfold closes; now rewrite SQ).
    split; [ | split; [ congruence | split; [ congruence | split; [ congruence | split; [ congruence | split ] ] ] ] ].
    + rewrite pushed_app, A1, B1. rewrite (filter_ext_in _ _ _ CL). cbn [filter]. destruct (closes R s w); reflexivity.
    + intros c C. rewrite B5 by (intros v V; apply C; now right). rewrite A3. destruct (Z.eqb_spec c (w_conn w)) as [E | E]; auto.
      exfalso. apply (C w); auto. now left.
    + intros l1 v l2 X V. destruct l1 as [ | u l1 ]; cbn in X; inversion X; subst.
      * rewrite B5 by auto. rewrite A3, Z.eqb_refl. auto.
      * rewrite (B6 l1 v l2 eq_refl V). rewrite SQ; auto. rewrite in_app_iff. cbn; auto.
Qed.
Lemma stop_queued_boot : forall s f a b c d e r l w av fw dd,
  stop_queued (w_tid w) (St a f b r (map (fun p => P (p_init p) (p_orig p) (p_init p) (p_orig p)) (q s)) c d e l av fw dd) = true
  <-> stop_stored s w.
Proof.
  intros. unfold stop_queued, stop_stored. cbn [T16Model.q]. rewrite existsb_exists. split.
  - intros [x [X E]]. apply in_map_iff in X as [p [<- X]]. cbn in E. destruct (p_orig p) eqn:O; try discriminate. apply Z.eqb_eq in E. subst. exists p. eauto 8.
  - intros [p (k & t & y & g & X & O)]. exists (P (p_init p) (p_orig p) (p_init p) (p_orig p)). split.
    apply in_map_iff. exists p. auto. cbn. rewrite O. apply Z.eqb_refl.
Qed.
Definition loaded (s : st) : st :=
  St (n s) (fun _ => None) [] (rows s) (map (fun p => P (p_init p) (p_orig p) (p_init p) (p_orig p)) (q s)) [] [] (nid s) (fun _ => None) (avdb s) false false.
Lemma loaded_queued : forall s w, stop_queued (w_tid w) (loaded s) = true <-> stop_stored s w.
Proof. intros. unfold loaded. apply stop_queued_boot. Qed.
Lemma pushed_restore : forall (s : st) (r : bool), pushed (if r then map (fun c => if avdb s c then OEnable c else ODisable c) (slots s) else []) = [].
Proof. intros s [ | ]; auto. induction (slots s) as [ | c l IH ]; auto. cbn [map pushed flat_map]. destruct (avdb s c); apply IH. Qed.

Lemma boot_eq : forall R restore s, NoDup (map w_tid (filter (fun w => negb (w_ack w)) (rows s))) ->
  pushed (snd (boot R restore s)) = map closing (filter (closes R (loaded s)) (filter (fun w => negb (w_ack w)) (rows s)))
  /\ (forall l1 w l2, filter (fun w => negb (w_ack w)) (rows s) = l1 ++ w :: l2 -> (forall v, In v l2 -> w_conn v <> w_conn w) ->
        act (fst (boot R restore s)) (w_conn w) = if negb (stop_queued (w_tid w) (loaded s)) && existsb (N.eqb (w_sess w)) R then Some (resumed w) else None).
Proof.
  intros R restore s ND. unfold boot. fold (loaded s).
  destruct (resume_rows R (filter (fun w => negb (w_ack w)) (rows s)) (loaded s)) as [s1 o1] eqn:E.
  apply resume_rows_eq in E as (A1 & A2 & A3 & A4 & A4' & A5 & A6); auto. cbn [fst snd]. split; auto.
  rewrite pushed_app, A1, pushed_restore, app_nil_r. auto.
Qed.
Lemma boot_avail : forall R s,
  avdb (fst (boot R true s)) = avdb s /\ dead (fst (boot R true s)) = false /\ (forall c, avq (fst (boot R true s)) c = None)
  /\ forall c, 0 <= c <= n s -> In (if avdb s c then OEnable c else ODisable c) (snd (boot R true s)).
Proof.
  intros R s. unfold boot. fold (loaded s).
  assert (G : forall l s0 s1 o, resume_rows R l s0 = (s1, o) -> avdb s1 = avdb s0 /\ n s1 = n s0 /\ dead s1 = dead s0 /\ avq s1 = avq s0).
  { induction l as [ | w l IH ]; intros s0 s1 o H; cbn in H. inversion H; auto.
    destruct (resume_row R w s0) as [s2 o2] eqn:E2. destruct (resume_rows R l s2) as [s3 o3] eqn:E3. inversion H; subst.
    apply resume_row_eq in E2 as (_ & _ & _ & A4 & A5 & A6 & A7). apply IH in E3 as (B1 & B2 & B3 & B4). repeat split; congruence. }
  destruct (resume_rows R (filter (fun w => negb (w_ack w)) (rows s)) (loaded s)) as [s1 o1] eqn:E. apply G in E as (E1 & E2 & E3 & E4). cbn [fst snd].
  split; [ rewrite E1; reflexivity | ]. split; [ rewrite E3; reflexivity | ]. split; [ intros c; rewrite E4; reflexivity | ].
  intros c C. apply in_app_iff. right. rewrite E1. apply in_map_iff. exists c. split; auto. apply in_slots. rewrite E2. cbn. lia.
Qed.

(** ** Availability *)
Lemma fold_upd : forall A (x : A) l (f : Z -> A) i, fold_left (fun g c => upd g c x) l f i = if existsb (Z.eqb i) l then x else f i.
Proof.
  intros A x l. induction l as [ | c l IH ]; intros f i; cbn; auto. rewrite IH. unfold upd.
  destruct (existsb (Z.eqb i) l); [ now rewrite orb_true_r | ]. destruct (Z.eqb_spec i c); cbn; auto.
Qed.
Lemma existsb_in : forall i l, existsb (Z.eqb i) l = true <-> In i l.
Proof. intros i l. rewrite existsb_exists. split. intros [x [X E]]. apply Z.eqb_eq in E. now subst. intros X. exists i. split; auto. apply Z.eqb_refl. Qed.
Lemma to_schedule_spec : forall s prep c, to_schedule s prep c = true <-> busy s prep c.
Proof.
  intros s prep c. unfold to_schedule, busy, active. rewrite orb_true_iff. destruct (act s c) as [t | ].
  - split; intros [A | A]; eauto. destruct A as [t' [E A]]. inversion E; subst; auto.
  - split; intros [A | A]; auto; try discriminate. destruct A as [t' [E _]]. discriminate.
Qed.
Lemma switched_app : forall a b, switched (a ++ b) = switched a ++ switched b.
Proof. intros. apply flat_map_app. Qed.
Lemma execute_switched : forall l u p s, switched (snd (execute_changes l u p s)) = map (fun c => (c, u)) l.
Proof.
  intros. unfold execute_changes. cbn [snd]. induction l as [ | c l IH ]; auto. cbn [flat_map map]. rewrite switched_app, IH.
  destruct (c =? 0), u; reflexivity.
Qed.
Lemma conns_nodup : forall s, NoDup (conns s).
Proof.
  intros s. unfold conns. generalize (seq_NoDup (Z.to_nat (n s)) 1). generalize (seq 1 (Z.to_nat (n s))) as l. induction l as [ | a l IH ]; intros N; cbn; constructor.
  - inversion N; subst. intros X. apply in_map_iff in X as [y [E Y]]. apply Nat2Z.inj in E. now subst.
  - inversion N; auto.
Qed.
Definition now_list (s : st) (c : Z) (prep : Z -> bool) : list Z :=
  (if c =? 0 then [0] else []) ++ filter (fun i => negb (to_schedule s prep i)) (if c =? 0 then conns s else [c]).
Lemma now_spec : forall s c prep i, 0 <= c <= n s -> (In i (now_list s c prep) <-> target s c i /\ (i = 0 \/ ~ busy s prep i)).
Proof.
  intros s c prep i C. unfold now_list, target. rewrite in_app_iff, filter_In, negb_true_iff, <- to_schedule_spec.
  destruct (Z.eqb_spec c 0) as [-> | NC].
  - cbn [In]. rewrite in_conns. destruct (to_schedule s prep i); intuition (try lia; try congruence).
  - cbn [In]. destruct (to_schedule s prep i); intuition (try lia; try congruence).
Qed.
Lemma now_nodup : forall s c prep, NoDup (now_list s c prep).
Proof.
  intros s c prep. unfold now_list. destruct (c =? 0).
  - cbn [app]. constructor. intros X. apply filter_In in X as [X _]. apply in_conns in X. lia. apply NoDup_filter, conns_nodup.
  - cbn [app]. apply NoDup_filter. repeat constructor. intros [].
Qed.
Definition sched_list (s : st) (c : Z) (prep : Z -> bool) : list Z := filter (to_schedule s prep) (if c =? 0 then conns s else [c]).
Lemma sched_spec : forall s c prep i, 0 <= c <= n s -> (In i (sched_list s c prep) <-> target s c i /\ busy s prep i /\ ~ (i = 0 /\ c = 0)).
Proof.
  intros s c prep i C. unfold sched_list, target. rewrite filter_In, to_schedule_spec.
  destruct (Z.eqb_spec c 0) as [-> | NC]; cbn [In]; rewrite ?in_conns; intuition (try lia; try congruence).
Qed.
Lemma change_eq : forall c up prep s, 0 <= c <= n s ->
  let s' := fst (change_availability c up prep s) in
  let o := snd (change_availability c up prep s) in
  answered o = [match sched_list s c prep with [] => AvAccepted | _ => AvScheduled end]
  /\ switched o = map (fun i => (i, up)) (now_list s c prep)
  /\ (forall i, avq s' i = if existsb (Z.eqb i) (sched_list s c prep) then Some (up, true) else avq s i)
  /\ (forall i, avdb s' i = if existsb (Z.eqb i) (now_list s c prep) then up else match avq s' i with Some (u, _) => u | None => avdb s i end).
Proof.
  intros c up prep s C. unfold change_availability, preprocess.
  replace ((c <=? n s) && (0 <=? c)) with true by (symmetry; apply andb_true_iff; rewrite !Z.leb_le; lia).
  fold (sched_list s c prep). fold (now_list s c prep). set (s2 := set_avdb _ _).
  assert (E : forall i, avq s2 i = if existsb (Z.eqb i) (sched_list s c prep) then Some (up, true) else avq s i).
  { intros i. unfold s2. cbn [avq set_avq set_avdb]. now rewrite fold_upd. }
  assert (D : forall i, avdb s2 i = match avq s2 i with Some (u, _) => u | None => avdb s i end) by (intros i; reflexivity).
  clearbody s2.
  assert (ANS : forall l, answered (flat_map (fun c => (if c =? 0 then [OZero up] else []) ++ [if up then OEnable c else ODisable c]) l) = []).
  { induction l as [ | a l IH ]; auto. cbn [flat_map]. unfold answered in *. rewrite !flat_map_app, IH. destruct (a =? 0), up; reflexivity. }
  assert (G : forall a, let p := (let (s3, o) := execute_changes (now_list s c prep) up true s2 in (s3, OAvail a :: o)) in
     answered (snd p) = [a] /\ switched (snd p) = map (fun i => (i, up)) (now_list s c prep) /\ (forall i, avq (fst p) i = avq s2 i)
     /\ (forall i, avdb (fst p) i = if existsb (Z.eqb i) (now_list s c prep) then up else avdb s2 i)).
  { intros a. cbn -[execute_changes]. pose proof (execute_switched (now_list s c prep) up true s2) as ES. unfold execute_changes in *. cbn [fst snd] in *.
    split; [ | split; [ | split ] ].
    - unfold answered in *. cbn [flat_map app]. now rewrite ANS.
    - unfold switched in *. cbn [flat_map app]. exact ES.
    - reflexivity.
    - intros i. cbn [avdb set_avdb]. apply fold_upd. }
  destruct (sched_list s c prep) as [ | z l ] eqn:SL; cbn [fst snd]; [ destruct (G AvAccepted) as (G1 & G2 & G3 & G4) | destruct (G AvScheduled) as (G1 & G2 & G3 & G4) ];
    cbn beta iota in *; (split; [ exact G1 | split; [ exact G2 | split; [ intros i; rewrite G3; apply E | intros i; rewrite G4, G3, D; reflexivity ] ] ]).
Qed.
