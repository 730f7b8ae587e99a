(** Proofs about the monitoring updater: what the CSMS learns while online; when passes end; event numbers. *)
From Coq Require Import ZArith List Bool Lia.
From Verif Require Import MonModel MonSpec MonSpec2 MonProofs MonProofs2 MonProofs3.
Import ListNotations.
Local Open Scope Z_scope.

(** * Online thresholds *)
Definition pastb (m : monitor) (x : Z) : bool :=
  match n_type m with Upper => n_value m <? x | Lower => x <? n_value m | _ => false end.
Lemma pastb_spec : forall m x, pastb m x = true <-> past m x.
Proof. intros m x. unfold pastb, past. destruct (n_type m); rewrite ?Z.ltb_lt; try lia; split; try discriminate; tauto. Qed.
Definition alarmb (m : monitor) (x : option Z) : bool := match x with Some z => pastb m z | None => false end.
Lemma alarmb_spec : forall m x, alarmb m x = true <-> alarming m x.
Proof. intros m [x|]; cbn; [apply pastb_spec|]. split; [discriminate|tauto]. Qed.
Fixpoint changesb (m : monitor) (before : option Z) (l : list Z) : bool :=
  match l with
  | [] => false
  | x :: q => changesb m before q || negb (eqb (pastb m x) (alarmb m (match q with y :: _ => Some y | [] => before end)))
  end.
Lemma changesb_spec : forall m k l, changesb m k l = true <-> changes m k l.
Proof.
  intros m k l. induction l as [|x q IH]; cbn [changes changesb]; [split; [discriminate|tauto]|].
  rewrite orb_true_iff, IH, negb_true_iff. rewrite <- pastb_spec, <- alarmb_spec.
  destruct (pastb m x), (alarmb m _); cbn; intuition congruence.
Qed.

(** The state of a monitor after its values. *)
Definition lives (m : monitor) (var : Z) (wo : bool) (s : option Z * list Z) (l : life) : Prop :=
  if alarmb m (newest s) || changesb m (fst s) (snd s)
  then exists x told, newest s = Some x /\ l = Watching (W m var wo x (alarmb m (newest s)) (changesb m (fst s) (snd s)) told [])
  else l = Idle.
Lemma beyond_past : forall m a b, threshold (n_type m) = true -> beyond Number m a b = pastb m b.
Proof. intros m a b T. unfold beyond, pastb. destruct (n_type m); try discriminate; rewrite Z.gtb_ltb; reflexivity. Qed.
Lemma look_lives : forall m var wo a b s l, threshold (n_type m) = true -> lives m var wo s l ->
  exists l1, look m var Number wo a b l = (l1, []) /\ lives m var wo (fst s, b :: snd s) l1.
Proof.
  intros m var wo a b (k&r) l T L. unfold look.
  assert (E : forall A (x y : A), match n_type m with Periodic => x | Aligned => x | _ => y end = y)
    by (intros; destruct (n_type m); try discriminate; reflexivity).
  assert (E2 : match n_type m with Delta => [] | _ => [] end = @nil seen) by (destruct (n_type m); reflexivity).
  exists (match l with
       | Idle => if beyond Number m a b then Watching (W m var wo b true true false []) else Idle
       | Watching w =>
           if threshold (n_type m)
           then Watching (W (w_mon w) (w_var w) (w_wo w) b (beyond Number m a b) (w_news w || negb (eqb (beyond Number m a b) (w_alarm w))) (w_told w) (w_queue w))
           else Watching (W (w_mon w) (w_var w) (w_wo w) b (w_alarm w || beyond Number m a b) (w_news w || beyond Number m a b) (w_told w) (w_queue w))
       | Timing t => Timing t end).
  split; [destruct (n_type m); try discriminate T; reflexivity|].
  rewrite (beyond_past m a b T), T. unfold lives in *. unfold newest in *. cbn [fst snd] in *. cbn [changesb].
  set (old := match r with y :: _ => Some y | [] => k end) in *.
  change (alarmb m (Some b)) with (pastb m b).
  destruct (alarmb m old || changesb m k r) eqn:C.
  - destruct L as (x&told&O&->). cbn [w_mon w_var w_wo w_news w_alarm w_told w_queue].
    assert (pastb m b || (changesb m k r || negb (eqb (pastb m b) (alarmb m old))) = true) as ->.
    { destruct (pastb m b), (changesb m k r), (alarmb m old); cbn in *; auto; discriminate. }
    eexists b, told. split; [reflexivity|]. reflexivity.
  - apply orb_false_elim in C. destruct C as (C1&C2). rewrite C1, C2 in *. subst l.
    destruct (pastb m b); cbn [negb orb eqb]; [|reflexivity]. eexists b, false. split; reflexivity.
Qed.
Lemma look_all_lives : forall m var wo i a b ms s l, threshold (n_type m) = true -> n_id m = i ->
  (forall k, In k ms -> n_id k = n_id m -> k = m) -> lives m var wo s l ->
  exists l1, look_all i ms var Number wo a b l = (l1, []) /\
    (if existsb (fun k => n_id k =? i) ms then lives m var wo (fst s, b :: snd s) l1 else l1 = l).
Proof.
  intros m var wo i a b ms. induction ms as [|k q IH]; intros s l T N H L.
  - exists l. split; reflexivity.
  - cbn [look_all existsb]. destruct (n_id k =? i) eqn:E.
    + apply Z.eqb_eq in E. assert (k = m) by (apply H; [left; auto|congruence]). subst k.
      destruct (look_lives m var wo a b s l T L) as (l1&E1&L1). rewrite E1.
      destruct (IH _ l1 T N (fun k X => H k (or_intror X)) L1) as (l2&E2&L2). rewrite E2. exists l2. split; auto.
      cbn [orb]. destruct (existsb _ q) eqn:EX; [|subst l2; auto].
      (* a second look at the same value changes nothing *)
      unfold lives in *. cbn [fst snd newest] in *. cbn [changesb] in *. change (alarmb m (Some b)) with (pastb m b) in *.
      rewrite eqb_reflx in L2. cbn [negb] in L2. rewrite orb_false_r in L2. exact L2.
    + destruct (IH s l T N (fun k X => H k (or_intror X)) L) as (l2&E2&L2). rewrite E2. exists l2. split; auto.
Qed.
Definition said (m : monitor) (var : Z) (wo : bool) (s : option Z * list Z) : list seen :=
  match newest s with
  | Some x => if changesb m (fst s) (snd s)
              then [Notice [Rep var (if wo then None else Some x) EAlerting (n_conf m) (Some (negb (pastb m x)))]] else []
  | None => []
  end.
Lemma pass_lives : forall m var wo v s l, threshold (n_type m) = true -> online m v -> lives m var wo s l ->
  exists l1, pass v l = (l1, said m var wo s) /\ lives m var wo (newest s, []) l1.
Proof.
  intros m var wo v s l T (On1&On2&On3) L. unfold lives, said in *.
  change (newest (newest s, [])) with (newest s). cbn [fst snd]. cbn [changesb]. rewrite orb_false_r.
  destruct (alarmb m (newest s) || changesb m (fst s) (snd s)) eqn:C.
  - destruct L as (x&told&O&->). cbn [pass]. unfold pass_watch. cbn [w_mon w_var w_wo w_value w_alarm w_news w_told w_queue app].
    rewrite On3, On2, O in *. cbn [alarmb] in *.
    exists (if pastb m x then Watching (W m var wo x true false true []) else Idle). split.
    + f_equal. destruct (changesb m (fst s) (snd s)); [|reflexivity]. cbn [notice]. unfold alarm_report. cbn [w_mon w_var w_wo w_value w_alarm].
      destruct (n_type m); try discriminate; reflexivity.
    + destruct (pastb m x); [|reflexivity]. eexists x, true. split; reflexivity.
  - apply orb_false_elim in C. destruct C as (C1&C2). subst l. rewrite C1, C2. exists Idle. split; [|reflexivity].
    cbn [pass]. destruct (newest s); reflexivity.
Qed.
Lemma step_lives : forall m var wo o known recent l, threshold (n_type m) = true -> plain m var wo o -> lives m var wo (known, recent) l ->
  exists l1, life_step (n_id m) l o = (l1, if is_pass o then said m var wo (known, recent) else []) /\
    lives m var wo (history m known recent [o]) l1.
Proof.
  intros m var wo o known recent l T P L. destruct o as [ms x d actual w a b|k x d w b|v|v]; cbn [plain is_pass] in *.
  - cbn [life_step history observed is_pass]. destruct actual; [|exists l; split; auto].
    destruct (existsb (fun k => n_id k =? n_id m) ms) eqn:EX.
    + apply existsb_exists in EX as EX'. destruct EX' as (k&K1&K2). apply Z.eqb_eq in K2. destruct (P k K1 K2) as (->&->&->&->).
      destruct (look_all_lives m var wo (n_id m) a b ms (known, recent) l T eq_refl) as (l1&E&L1); auto.
      { intros k X Y. exact (proj1 (P k X Y)). }
      rewrite EX in L1. exists l1. split; auto.
    + assert (N : forall ms s, existsb (fun k => n_id k =? n_id m) ms = false -> look_all (n_id m) ms x d w a b s = (s, [])).
      { clear. intros ms. induction ms as [|k q IH]; intros s E; [reflexivity|]. cbn [existsb] in E. apply orb_false_elim in E.
        destruct E as (E1&E2). cbn [look_all]. rewrite E1, (IH s E2). reflexivity. }
      rewrite (N ms l EX). exists l. split; auto.
  - cbn [life_step history observed is_pass]. apply Z.eqb_neq in P. rewrite P. exists l. split; auto.
  - destruct P as (P1&P2). cbn [life_step history observed is_pass]. rewrite (proj1 P1).
    assert (appear v (n_id m) l = l) as ->.
    { unfold appear. rewrite P2. unfold lives in L. destruct (_ || _); [|subst l; reflexivity].
      destruct L as (y&told&_&->). reflexivity. }
    apply pass_lives; auto.
  - cbn [life_step history observed is_pass]. rewrite (proj1 P). apply pass_lives; auto.
Qed.
Lemma history_cons : forall m o h known recent, history m known recent (o :: h) =
  history m (fst (history m known recent [o])) (snd (history m known recent [o])) h.
Proof. intros. cbn [history]. destruct (observed m o); [reflexivity|]. destruct (is_pass o); reflexivity. Qed.
Lemma history_app : forall m h g known recent, history m known recent (h ++ g) =
  history m (fst (history m known recent h)) (snd (history m known recent h)) g.
Proof.
  intros m h. induction h as [|o h IH]; intros g known recent; [reflexivity|].
  cbn [app]. rewrite history_cons, IH, (history_cons m o h). reflexivity.
Qed.
Lemma life_run_app : forall i h g s, life_run i s (h ++ g) =
  (fst (life_run i (fst (life_run i s h)) g), snd (life_run i s h) ++ snd (life_run i (fst (life_run i s h)) g)).
Proof.
  intros i h. induction h as [|o h IH]; intros g s; cbn [app life_run].
  - cbn. destruct (life_run i s g); reflexivity.
  - destruct (life_step i s o) as (s1&a). rewrite IH. destruct (life_run i s1 h) as (s2&b). cbn [fst snd]. rewrite app_assoc. reflexivity.
Qed.
Lemma run_lives : forall m var wo h known recent l, threshold (n_type m) = true -> Forall (plain m var wo) h -> lives m var wo (known, recent) l ->
  lives m var wo (history m known recent h) (fst (life_run (n_id m) l h)).
Proof.
  intros m var wo h. induction h as [|o h IH]; intros known recent l T P L; [exact L|].
  inversion P as [|? ? P1 P2]; subst. destruct (step_lives m var wo o known recent l T P1 L) as (l1&E&L1).
  cbn [life_run]. rewrite E. specialize (IH (fst (history m known recent [o])) (snd (history m known recent [o])) l1 T P2).
  rewrite history_cons. destruct (history m known recent [o]) as (k1&r1). cbn [fst snd] in *. specialize (IH L1).
  destruct (life_run (n_id m) l1 h) as (s2&b). exact IH.
Qed.
Lemma lives_idle : forall m var wo, lives m var wo (None, []) Idle.
Proof. intros. reflexivity. Qed.

(** A pass says [said]. *)
Lemma pass_says : forall m var wo h o, threshold (n_type m) = true -> Forall (plain m var wo) (h ++ [o]) -> is_pass o = true ->
  snd (life_run (n_id m) Idle (h ++ [o])) = snd (life_run (n_id m) Idle h) ++ said m var wo (history m None [] h).
Proof.
  intros m var wo h o T P O. apply Forall_app in P. destruct P as (P1&P2). inversion P2 as [|? ? P3 _]; subst.
  rewrite life_run_app. cbn [snd]. f_equal.
  pose proof (run_lives m var wo h None [] Idle T P1 (lives_idle m var wo)) as L.
  destruct (history m None [] h) as (k&r). destruct (step_lives m var wo o k r _ T P3 L) as (l1&E&_).
  cbn [life_run]. rewrite E, O. cbn [snd]. apply app_nil_r.
Qed.
Lemma rest_says : forall m var wo h o, threshold (n_type m) = true -> Forall (plain m var wo) (h ++ [o]) -> is_pass o = false ->
  snd (life_run (n_id m) Idle (h ++ [o])) = snd (life_run (n_id m) Idle h).
Proof.
  intros m var wo h o T P O. apply Forall_app in P. destruct P as (P1&P2). inversion P2 as [|? ? P3 _]; subst.
  rewrite life_run_app. cbn [snd]. 
  pose proof (run_lives m var wo h None [] Idle T P1 (lives_idle m var wo)) as L.
  destruct (history m None [] h) as (k&r). destruct (step_lives m var wo o k r _ T P3 L) as (l1&E&_).
  cbn [life_run]. rewrite E, O. cbn [snd]. apply app_nil_r.
Qed.
Lemma reports_app : forall a b, reports (a ++ b) = reports a ++ reports b.
Proof. intros. apply flat_map_app. Qed.
Definition believedb (l : list seen) : bool :=
  match rev (reports l) with r :: _ => match r_clear r with Some false => true | _ => false end | [] => false end.
Lemma believedb_spec : forall l, believedb l = true <-> believed l.
Proof.
  intros l. unfold believedb, believed. destruct (rev (reports l)) as [|r q]; [split; [discriminate|tauto]|].
  destruct (r_clear r) as [[|]|]; split; congruence.
Qed.
Lemma changes_none : forall m k l, changesb m k l = false -> match l with x :: _ => pastb m x = alarmb m k | [] => True end.
Proof.
  intros m k l. induction l as [|x q IH]; auto. cbn [changesb]. intros H. apply orb_false_elim in H. destruct H as (H1&H2).
  specialize (IH H1). apply negb_false_iff, eqb_prop in H2. rewrite H2. destruct q as [|y r]; auto.
Qed.
(** What is believed is the state at the last pass. *)
Lemma believed_last : forall m var wo h, threshold (n_type m) = true -> Forall (plain m var wo) h ->
  believedb (snd (life_run (n_id m) Idle h)) = alarmb m (fst (history m None [] h)).
Proof.
  intros m var wo h T. induction h as [|o h IH] using rev_ind; intros P; [reflexivity|].
  pose proof P as P0. apply Forall_app in P. destruct P as (P1&P2). specialize (IH P1).
  rewrite history_app. destruct (is_pass o) eqn:O.
  - rewrite (pass_says m var wo h o T P0 O). destruct (history m None [] h) as (k&r). cbn [fst snd] in *.
    assert (history m k r [o] = (newest (k, r), [])) as ->.
    { cbn [history]. rewrite O. destruct o; try discriminate O; reflexivity. }
    cbn [fst]. unfold said. destruct (newest (k, r)) as [x|] eqn:N.
    + cbn [fst snd]. destruct (changesb m k r) eqn:C.
      * unfold believedb. rewrite reports_app. cbn [reports flat_map app]. rewrite rev_app_distr. cbn [rev app r_clear alarmb].
        destruct (pastb m x); reflexivity.
      * rewrite app_nil_r, IH. apply changes_none in C. destruct r as [|y q]; cbn in N.
        -- subst k. reflexivity.
        -- injection N as ->. cbn [alarmb]. auto.
    + rewrite app_nil_r, IH. destruct r; cbn in N; [subst k; reflexivity|discriminate].
  - rewrite (rest_says m var wo h o T P0 O), IH. destruct (history m None [] h) as (k&r). cbn [fst snd].
    cbn [history]. rewrite O. destruct (observed m o); reflexivity.
Qed.
