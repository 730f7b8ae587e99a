(** C100-C103: authorization, local list, contracts and reservations of an OCPP 1.6 station. *)
From Coq Require Import String ZArith NArith List Bool Lia Sorting.Sorted.
From Verif Require Import A16Model A16Spec A16Proofs A16Proofs2.
Import ListNotations.
Local Open Scope Z_scope.

(** What the station looks like after a history, and what was seen. *)
Definition after (h : list op) : st := run h initial.
Definition saw (h : list op) : list (op * list out) := events h initial.

(** *** C100 *)
(** The decision about a tag depends on nothing but the configuration, the connection, the clock and what the CSMS has said. *)
Theorem C100_decision : forall h g c e tag only_locally a price, Forall whole h -> ticking (h ++ [Authorize g c e tag only_locally a price]) ->
  snd (step (Authorize g c e tag only_locally a price) (after h)) = [ORes (decide g c e (told tag (saw h)) (word tag (saw h)) only_locally a price)].
Proof.
  intros h g c e tag o a p W L. destruct (history h [Authorize g c e tag o a p] W L) as (T & X & Y).
  destruct (steady_of T (Authorize g c e tag o a p) [] Y) as [S _]. cbn [steady] in S.
  assert (Z := authorize_spec g c T e tag o a p (after h) _ _ S X). cbn [step]. destruct (authorize g c e tag o a p (after h)) as [s' r]. destruct Z as [ -> _ ]. reflexivity.
Qed.
Definition all_on : cfg := Cfg true true true true true false false.
Definition at_time (t : Z) : env := Env t t t t false false false.
Definition ok (x : option Z) : info := Info Accepted x None.
(** A tag that the CSMS accepted until 100 is accepted offline at 50 and not at 100, where it is asked for again. *)
Example C100_decision_ex : let h := [Authorize all_on Online (at_time 10) "A" false (Conf (ok (Some 100))) None] in
  Forall whole (h ++ [Authorize all_on Offline (at_time 50) "A" false NoConf None]) /\ ticking (h ++ [Authorize all_on Offline (at_time 50) "A" false NoConf None; Authorize all_on Offline (at_time 100) "A" false NoConf None])
  /\ snd (step (Authorize all_on Offline (at_time 50) "A" false NoConf None) (after h)) = [ORes (Res (ok (Some 100)) NoTariff false)]
  /\ snd (step (Authorize all_on Offline (at_time 100) "A" false NoConf None) (after h)) = [ORes (Res invalid NoTariff true)].
Proof. cbn zeta. split; [ repeat constructor | ]. split; [ unfold ticking; cbn; repeat constructor; lia | ]. vm_compute. split; reflexivity. Qed.

(** Whatever the clock does, a tag is accepted only if the CSMS has accepted it, or offline if unknown tags are allowed. *)
Theorem C100_accepted_only_if : forall h g c e tag only_locally a price i t b, Forall whole h ->
  snd (step (Authorize g c e tag only_locally a price) (after h)) = [ORes (Res i t b)] -> i_status i = Accepted ->
  b = false /\ local_ok g c = true
    /\ ((c_list g = true /\ told tag (saw h) = Some i /\ ~ past (t_list e) i) \/ (c_cache g = true /\ word tag (saw h) = Some i /\ ~ past (t_again e) i))
  \/ b = true /\ only_locally = false /\ (a = Conf i \/ a = WhenOffline /\ c_unknown g = true).
Proof.
  intros h g c e tag o a p i t b W. cbn [step]. assert (X := authorize_weak g c e tag o a p (after h) _ _ (history_weak h W)).
  destruct (authorize g c e tag o a p (after h)) as [s' r]. cbn [snd]. intros E A. inversion E; subst. destruct X as [_ X].
  assert (N : forall now j, pastb now j = false -> ~ past now j). { intros now j P (x & Q & R). unfold pastb in P. rewrite Q in P. lia. }
  destruct (X _ _ _ eq_refl A) as [ (B & C & D) | D ]; [ left | right; auto ]. split; auto. split; auto. destruct D as [ (D1 & D2 & D3) | (D1 & D2 & D3) ]; [ left | right ]; auto.
Qed.
(** Accepted from the list though the cache says Blocked: the list counts. *)
Example C100_accepted_only_if_ex : let h := [StartConf "A" (Info Blocked None None); SendList all_on Full 3 (Some [("A"%string, Some (ok None))])] in
  Forall whole h /\ snd (step (Authorize all_on Online (at_time 5) "A" false NoConf None) (after h)) = [ORes (Res (ok None) NoTariff false)].
Proof. cbn zeta. split; [ repeat constructor | ]. vm_compute. reflexivity. Qed.

(** Undefined behaviour is reached only before the first connection or if the database fails. *)
Theorem C100_no_undefined_behaviour_partial : forall s g c e tag only_locally a price, c <> NoSocket -> f_cache e = false ->
  snd (step (Authorize g c e tag only_locally a price) s) <> [ORes UB].
Proof.
  intros s g c e tag o a p C F. cbn [step].
  assert (L : forall i, local_result g c i <> UB). { intros i. unfold local_result. destruct (is_accepted i && c_price g); [ | discriminate ]. destruct c; congruence. }
  assert (V : forall s1, snd (validate e tag s1) <> None).
  { intros s1. unfold validate. rewrite F. destruct (look (t_cache e) tag (cache s1)) as [l [ i | ]]; [ | discriminate ]. destruct (is_accepted i); [ | discriminate ]. destruct (i_expiry i) as [ x | ]; [ | discriminate ]. destruct (x <? t_valid e); discriminate. }
  unfold authorize, locally. destruct (_ || _).
  - destruct (in_list g e tag s) as [s1 [ i | ]]. { cbn [snd]. intros E. inversion E as [E']. now apply L in E'. }
    assert (X : snd (in_cache g e tag s1) <> None).
    { unfold in_cache. destruct (c_cache g); [ | discriminate ]. specialize (V s1). destruct (validate e tag s1) as [s2 [ [ | ] | ]]; cbn [snd] in *; try congruence. destruct (f_again e); [ discriminate | ]. destruct (look (t_again e) tag (cache s2)). discriminate. }
    destruct (in_cache g e tag s1) as [s2 [ [ i | ] | ]]; cbn [snd] in *.
    + intros E. inversion E as [E']. now apply L in E'.
    + destruct o; [ discriminate | ]. destruct a; discriminate.
    + congruence.
  - destruct o; [ discriminate | ]. destruct a; discriminate.
Qed.
Example C100_no_undefined_behaviour_ex : Offline <> NoSocket /\ f_cache (at_time 5) = false
  /\ snd (step (Authorize all_on Offline (at_time 5) "A" true NoConf None) initial) = [ORes (Res invalid NoTariff false)].
Proof. split; [ discriminate | ]. split; reflexivity. Qed.
(** The tariff message of a tag that is accepted locally, before the first connection: the websocket is null. *)
Theorem C100_no_undefined_behaviour_refuted : exists h g,
  h = [SendList g Full 1 (Some [("A"%string, Some (ok None))])] /\ c_price g = true
  /\ snd (step (Authorize g NoSocket (at_time 5) "A" false NoConf None) (after h)) = [ORes UB].
Proof. eexists. exists (Cfg true true true true true false true). split; [ reflexivity | ]. split; reflexivity. Qed.
(** A query of the cache that fails: the function ends without a value. *)
Theorem C100_failing_query_refuted : exists e, f_cache e = true
  /\ snd (step (Authorize all_on Online e "A" false NoConf None) initial) = [ORes UB].
Proof. exists (Env 5 5 5 5 false true false). split; reflexivity. Qed.
(** What the CSMS answers to StopTransaction.req is not remembered. *)
Theorem C100_last_word_counts_refuted : exists h, h = [StartConf "A" (ok None); StopConf "A" (Info Blocked None None)]
  /\ snd (step (Authorize all_on Offline (at_time 5) "A" false WhenOffline None) (after h)) = [ORes (Res (ok None) NoTariff false)].
Proof. eexists. split; [ reflexivity | ]. vm_compute. reflexivity. Qed.
(** What was answered while the cache was disabled is used when it is enabled. *)
Theorem C100_disabled_cache_is_not_filled_refuted : exists h g, c_cache g = false /\ h = [Authorize g Online (at_time 5) "A" false (Conf (ok None)) None; ClearCache g]
  /\ snd (step (Authorize all_on Offline (at_time 6) "A" false WhenOffline None) (after h)) = [ORes (Res (ok None) NoTariff false)].
Proof. eexists. exists (Cfg true true true false true false false). split; [ reflexivity | ]. split; [ reflexivity | ]. vm_compute. reflexivity. Qed.
(** Id tags are case insensitive, but "a" is not found if "A" is blocked. *)
Theorem C100_tags_are_case_insensitive_refuted : exists h g, c_unknown g = true /\ h = [SendList g Full 1 (Some [("A"%string, Some (Info Blocked None None))])]
  /\ snd (step (Authorize g Offline (at_time 5) "A" false WhenOffline None) (after h)) = [ORes (Res (Info Blocked None None) NoTariff false)]
  /\ snd (step (Authorize g Offline (at_time 5) "a" false WhenOffline None) (after h)) = [ORes (Res (Info Accepted None None) NoTariff true)].
Proof. eexists. exists (Cfg true true true true true true false). split; [ reflexivity | ]. split; [ reflexivity | ]. vm_compute. split; reflexivity. Qed.

(** *** C101 *)
Local Ltac fin := repeat match goal with |- _ /\ _ => split | |- _ <-> _ => split end; intros;
  repeat match goal with H : _ /\ _ |- _ => destruct H | H : _ \/ _ |- _ => destruct H end; try discriminate; try congruence; try lia; try tauto; auto; try (split; [ assumption | ]); repeat match goal with |- _ /\ _ => split end; auto; try discriminate; try lia; try (now left); try (right; split; [ discriminate | lia ]).
(** How an update of the list is answered. *)
Theorem C101_updates_are_answered : forall h g u v l, Forall whole h ->
  let on := c_mgmt g = true /\ c_list g = true in
  exists r, snd (step (SendList g u v l) (after h)) = [OList r]
  /\ (r = UNotSupported <-> ~ on)
  /\ (r = UFailed <-> on /\ u = Differential /\ l = None)
  /\ (r = UVersionMismatch <-> on /\ u = Differential /\ l <> None /\ v <= vers (saw h))
  /\ (r = UAccepted <-> on /\ (u = Full \/ l <> None /\ vers (saw h) < v)).
Proof.
  intros h g u v l W on. assert (V := run_version h initial 0 W eq_refl). fold (after h) in V. change (fold_left vers1 (events h initial) 0) with (vers (saw h)) in V.
  cbn [step]. unfold plan. assert (ON : enabled g = true <-> on) by (unfold enabled, on; rewrite andb_true_iff; tauto).
  destruct (enabled g).
  - assert (O : on) by now apply ON. clear ON. rewrite V. destruct u, l as [ l | ].
    + exists UAccepted. split; auto. fin.
    + exists UAccepted. split; auto. fin.
    + destruct (Z.ltb_spec (vers (saw h)) v).
      * exists UAccepted. split; auto. fin.
      * exists UVersionMismatch. split; auto. fin.
    + exists UFailed. split; auto. fin.
  - assert (O : ~ on) by (intros O; apply ON in O; discriminate). exists UNotSupported. split; auto. fin.
Qed.
Example C101_updates_are_answered_ex : let h := [SendList all_on Full 3 (Some [("A"%string, Some (ok None))])] in Forall whole h
  /\ snd (step (SendList all_on Differential 3 (Some [])) (after h)) = [OList UVersionMismatch] /\ snd (step (SendList all_on Differential 4 (Some [])) (after h)) = [OList UAccepted].
Proof. cbn zeta. split; [ repeat constructor | ]. vm_compute. split; reflexivity. Qed.
(** The version that is reported. *)
Theorem C101_version : forall h g, Forall whole h ->
  exists v, snd (step (GetVersion g) (after h)) = [OVersion (Some v)]
  /\ (c_mgmt g && c_list g = false -> v = -1)
  /\ (c_mgmt g && c_list g = true -> (forall tag, told tag (saw h) = None) -> v = 0)
  /\ (c_mgmt g && c_list g = true -> forall tag, told tag (saw h) <> None -> v = vers (saw h)).
Proof.
  intros h g W. assert (V := run_version h initial 0 W eq_refl). fold (after h) in V. change (fold_left vers1 (events h initial) 0) with (vers (saw h)) in V.
  destruct (history_weak h W) as [A _]. fold (after h) (saw h) in A. cbn [step]. unfold get_version. change (enabled g) with (c_mgmt g && c_list g). destruct (c_mgmt g && c_list g).
  - destruct (entries (after h)) as [ | [k i] r ] eqn:E.
    + exists 0. split; auto. split; [ discriminate | ]. split; auto. intros _ tag T. destruct (A tag) as [x X]. unfold same in X. cbn [get] in X. destruct (told tag (saw h)); [ destruct X | congruence ].
    + rewrite V. exists (vers (saw h)). split; auto. split; [ discriminate | ]. split; auto. intros _ T. specialize (A k). rewrite T in A. destruct A as [x X]. cbn [get] in X. rewrite String.eqb_refl in X. destruct X.
  - exists (-1). split; auto. split; auto. split; discriminate.
Qed.
Example C101_version_ex : let h := [SendList all_on Full 3 (Some [("A"%string, Some (ok None))]); SendList all_on Differential 4 (Some [("B"%string, Some (ok None)); ("A"%string, None)])] in Forall whole h
  /\ snd (step (GetVersion all_on) (after h)) = [OVersion (Some 4)] /\ told "B" (saw h) = Some (ok None) /\ told "A" (saw h) = None.
Proof. cbn zeta. split; [ repeat constructor | ]. vm_compute. repeat split. Qed.
(** Power is lost while the list is updated: the new version is reported, with an entry missing. *)
Theorem C101_interrupted_update_refuted : exists l h,
  l = [("A"%string, Some (ok None)); ("B"%string, Some (ok None))] /\ h = [Killed all_on Full 3 (Some l) 3; Boot]
  /\ snd (step (GetVersion all_on) (after h)) = [OVersion (Some 3)]
  /\ snd (step (Authorize all_on Offline (at_time 5) "B" false NoConf None) (after h)) = [ORes (Res invalid NoTariff true)].
Proof. do 2 eexists. split; [ reflexivity | ]. split; [ reflexivity | ]. vm_compute. split; reflexivity. Qed.
(** The same with a differential update: none of it is there, and sending it again is refused. *)
Theorem C101_interrupted_differential_refuted : exists d h,
  d = [("A"%string, Some (Info Blocked None None))]
  /\ h = [SendList all_on Full 3 (Some [("A"%string, Some (ok None))]); Killed all_on Differential 4 (Some d) 1; Boot]
  /\ snd (step (GetVersion all_on) (after h)) = [OVersion (Some 4)]
  /\ snd (step (SendList all_on Differential 4 (Some d)) (after h)) = [OList UVersionMismatch]
  /\ snd (step (Authorize all_on Offline (at_time 5) "A" false NoConf None) (after h)) = [ORes (Res (ok None) NoTariff false)].
Proof. do 2 eexists. split; [ reflexivity | ]. split; [ reflexivity | ]. vm_compute. repeat split; reflexivity. Qed.
(** An empty list is reported as version 0, but an update with a greater version is refused. *)
Theorem C101_greater_versions_are_accepted_refuted : exists h, h = [SendList all_on Full 5 None]
  /\ snd (step (GetVersion all_on) (after h)) = [OVersion (Some 0)]
  /\ snd (step (SendList all_on Differential 1 (Some [("A"%string, Some (ok None))])) (after h)) = [OList UVersionMismatch].
Proof. eexists. split; [ reflexivity | ]. vm_compute. split; reflexivity. Qed.

(** *** C102 *)
(** A contract is accepted only by the CSMS, or offline if its certificate is valid and its id is known. *)
Theorem C102_contracts_are_accepted_only_if : forall h g p c e emaid hashes cert reply m, Forall whole h ->
  snd (step (Pnc g p c e emaid hashes cert reply) (after h)) = [OPnc (PRes PAccepted m)] ->
  p_enabled p = true
  /\ (c = Online /\ m <> None /\ reply = Some PAccepted
      \/ c = Offline /\ m = None /\ p_offline p = true /\ (exists made, cert = Some (VValid, made)) /\ c_off g = true
         /\ exists i, i_status i = Accepted
            /\ ((c_list g = true /\ told emaid (saw h) = Some i /\ ~ past (t_list e) i) \/ (c_cache g = true /\ word emaid (saw h) = Some i /\ ~ past (t_again e) i))).
Proof.
  intros h g p c e emaid hashes cert reply m W. cbn [step]. unfold pnc.
  destruct (p_enabled p); [ | discriminate ].
  assert (F : forall x k, match reply with Some x => x | None => PUnknown end = PAccepted -> m = Some k -> x = true -> m <> None /\ reply = Some PAccepted).
  { intros x k E M _. destruct reply; [ | discriminate ]. subst. split; congruence. }
  destruct c; [ discriminate | | ]; cbn [online andb].
  - destruct cert as [[v made] | ]; [ | discriminate ]. destruct (p_offline p); [ | discriminate ]. destruct v; try discriminate.
    destruct (c_off g) eqn:CO; [ | discriminate ]. destruct (20 <? Z.of_nat (String.length emaid)); [ discriminate | ].
    assert (X := C100_accepted_only_if h g Offline e emaid true NoConf None). cbn [step] in X.
    destruct (authorize g Offline e emaid true NoConf None (after h)) as [s1 [i t b | ]]; [ | discriminate ]. cbn [snd] in *.
    destruct (is_accepted i) eqn:A; intros E; inversion E; subst. apply is_accepted_iff in A.
    split; auto. right. repeat split; eauto. exists i. split; auto. destruct (X i t b W eq_refl A) as [ (_ & _ & D) | (_ & D & _) ]; auto. discriminate.
  - intros H. split; auto. left. destruct hashes. { cbn [snd] in H. inversion H as [[E M]]. destruct (F true _ E (eq_sym M) eq_refl) as [F1 F2]. rewrite F2 in *. repeat split; congruence. }
    destruct cert as [[v made] | ]; [ | discriminate ].
    destruct v, made, (p_central p); cbn [snd] in H; try discriminate; inversion H as [[E M]]; destruct (F true _ E (eq_sym M) eq_refl) as [F1 F2]; rewrite F2 in *; repeat split; congruence.
Qed.
Definition pnc_on : pcfg := PCfg true true true.
Example C102_contracts_are_accepted_only_if_ex : let h := [SendList all_on Full 3 (Some [("DE-ABC"%string, Some (ok (Some 100)))])] in Forall whole h
  /\ snd (step (Pnc all_on pnc_on Offline (at_time 5) "DE-ABC" true (Some (VValid, false)) None) (after h)) = [OPnc (PRes PAccepted None)]
  /\ snd (step (Pnc all_on pnc_on Offline (at_time 100) "DE-ABC" true (Some (VValid, false)) None) (after h)) = [OPnc (PRes PInvalid None)]
  /\ snd (step (Pnc all_on pnc_on Online (at_time 100) "DE-ABC" true None (Some PAccepted)) (after h)) = [OPnc (PRes PAccepted (Some GivenHashes))].
Proof. cbn zeta. split; [ repeat constructor | ]. vm_compute. repeat split; reflexivity. Qed.
(** What is sent to the CSMS. *)
Theorem C102_what_is_sent : forall s g p c e emaid hashes cert reply x m, snd (step (Pnc g p c e emaid hashes cert reply) s) = [OPnc (PRes x m)] ->
  (m = Some GivenHashes <-> p_enabled p = true /\ c = Online /\ hashes = true)
  /\ (m = Some MadeHashes <-> p_enabled p = true /\ c = Online /\ hashes = false /\ exists v, cert = Some (v, true) /\ v <> VIssuerNotFound)
  /\ (m = Some Certificate <-> p_enabled p = true /\ c = Online /\ hashes = false /\ p_central p = true /\ exists v made, cert = Some (v, made) /\ (v = VIssuerNotFound \/ made = false))
  /\ (m <> None -> x = match reply with Some y => y | None => PUnknown end)
  /\ (p_enabled p = false -> x = PInvalid)
  /\ (p_enabled p = true -> c = Online -> m = None -> x = PInvalid)
  /\ (p_enabled p = true -> c = Offline -> cert = None -> x = PInvalid)
  /\ (p_enabled p = true -> c = Offline -> forall v made, cert = Some (v, made) -> p_offline p = false -> x = PNotAtThisTime)
  /\ (p_enabled p = true -> c = Offline -> forall v made, cert = Some (v, made) -> p_offline p = true ->
        x = match v with VValid => if c_off g then x else PUnknown | VExpired => PExpired | _ => PUnknown end /\ (v = VValid -> c_off g = true -> x = PAccepted \/ x = PInvalid)).
Proof.
  intros s g p c e emaid hashes cert reply x m. cbn [step]. unfold pnc.
  destruct (p_enabled p).
  2:{ cbn [snd]. intros E. inversion E; subst. intuition; try discriminate; try congruence. }
  destruct c; [ discriminate | | ]; cbn [online andb].
  - destruct cert as [[v made] | ].
    2:{ cbn [snd]. intros E. inversion E; subst. intuition; try discriminate; try congruence. }
    destruct (p_offline p).
    2:{ cbn [snd]. intros E. inversion E; subst. intuition; try discriminate; try congruence. }
    assert (K : forall y, [OPnc (PRes y None)] = [OPnc (PRes x m)] ->
      (y = match v with VValid => if c_off g then y else PUnknown | VExpired => PExpired | _ => PUnknown end /\ (v = VValid -> c_off g = true -> y = PAccepted \/ y = PInvalid)) -> 
      (m = Some GivenHashes <-> true = true /\ Offline = Online /\ hashes = true)
  /\ (m = Some MadeHashes <-> true = true /\ Offline = Online /\ hashes = false /\ exists v0, Some (v, made) = Some (v0, true) /\ v0 <> VIssuerNotFound)
  /\ (m = Some Certificate <-> true = true /\ Offline = Online /\ hashes = false /\ p_central p = true /\ exists v0 made0, Some (v, made) = Some (v0, made0) /\ (v0 = VIssuerNotFound \/ made0 = false))
  /\ (m <> None -> x = match reply with Some y => y | None => PUnknown end)
  /\ (true = false -> x = PInvalid)
  /\ (true = true -> Offline = Online -> m = None -> x = PInvalid)
  /\ (true = true -> Offline = Offline -> Some (v, made) = None -> x = PInvalid)
  /\ (true = true -> Offline = Offline -> forall v0 made0, Some (v, made) = Some (v0, made0) -> true = false -> x = PNotAtThisTime)
  /\ (true = true -> Offline = Offline -> forall v0 made0, Some (v, made) = Some (v0, made0) -> true = true ->
        x = match v0 with VValid => if c_off g then x else PUnknown | VExpired => PExpired | _ => PUnknown end /\ (v0 = VValid -> c_off g = true -> x = PAccepted \/ x = PInvalid))).
    { intros y E Q. inversion E; subst. repeat match goal with |- _ /\ _ => split end; try (split; [ discriminate | intros (_ & X & _); discriminate ]); try discriminate; try congruence.
      intros _ _ v0 made0 E0 _. inversion E0; subst. exact Q. }
    destruct v; try (cbn [snd]; intros E; apply (K _ E); split; auto; discriminate).
    destruct (c_off g) eqn:CO. 2:{ cbn [snd]; intros E; apply (K _ E); split; auto; discriminate. }
    destruct (20 <? Z.of_nat (String.length emaid)); [ discriminate | ].
    destruct (authorize g Offline e emaid true NoConf None s) as [s1 [i t b | ]]; [ | discriminate ]. cbn [snd]. intros E. apply (K _ E). split; auto. intros _ _. destruct (is_accepted i); auto.
  - intros H.
    assert (K : forall y n, [OPnc (PRes y n)] = [OPnc (PRes x m)] -> x = y /\ m = n) by (intros y n E; inversion E; auto).
    destruct hashes.
    { cbn [snd] in H. apply K in H as [ -> -> ]. repeat match goal with |- _ /\ _ => split end; try discriminate; try tauto; try (split; [ discriminate | intros (_ & _ & X & _); discriminate ]); congruence. }
    destruct cert as [[v made] | ].
    2:{ cbn [snd] in H. apply K in H as [ -> -> ]. repeat match goal with |- _ /\ _ => split end; try discriminate; try tauto; try congruence;
        (split; [ discriminate | ]). - intros (_ & _ & X). discriminate. - intros (_ & _ & _ & v0 & X & _). discriminate. - intros (_ & _ & _ & _ & v0 & m0 & X & _). discriminate. }
    assert (ID : v = VIssuerNotFound \/ v <> VIssuerNotFound) by (destruct v; (left; reflexivity) || (right; discriminate)).
    assert (H' : [OPnc (PRes x m)] = if negb (match v with VIssuerNotFound => true | _ => negb made end) then [OPnc (PRes (match reply with Some x => x | None => PUnknown end) (Some MadeHashes))]
                 else if p_central p then [OPnc (PRes (match reply with Some x => x | None => PUnknown end) (Some Certificate))] else [OPnc (PRes PInvalid None)]).
    { destruct v, made, (p_central p); cbn in *; congruence. }
    clear H. symmetry in H'. destruct (match v with VIssuerNotFound => true | _ => negb made end) eqn:B; cbn [negb] in H'.
    + assert (B' : v = VIssuerNotFound \/ made = false) by (destruct ID as [ -> | ID ]; auto; right; destruct v, made; auto; congruence).
      destruct (p_central p); apply K in H' as [ -> -> ]; repeat match goal with |- _ /\ _ => split end; try discriminate; try congruence.
      * split; [ discriminate | intros (_ & _ & X); discriminate ].
      * split; [ discriminate | intros (_ & _ & _ & v0 & X & Y) ]. inversion X; subst. destruct B'; congruence.
      * split; [ intros _ | auto ]. repeat split; auto. eauto.
      * split; [ discriminate | intros (_ & _ & X); discriminate ].
      * split; [ discriminate | intros (_ & _ & _ & v0 & X & Y) ]. inversion X; subst. destruct B'; congruence.
      * split; [ discriminate | intros (_ & _ & _ & X & _); discriminate ].
    + assert (B' : v <> VIssuerNotFound /\ made = true) by (destruct v, made; cbn in B; try discriminate; split; auto; discriminate). destruct B' as [B1 ->].
      apply K in H' as [ -> -> ]; repeat match goal with |- _ /\ _ => split end; try discriminate; try congruence.
      * split; [ discriminate | intros (_ & _ & X); discriminate ].
      * split; [ intros _ | auto ]. repeat split; auto. eauto.
      * split; [ discriminate | intros (_ & _ & _ & _ & v0 & m0 & X & Y) ]. inversion X; subst. destruct Y; congruence.
Qed.
Example C102_what_is_sent_ex :
  snd (step (Pnc all_on pnc_on Online (at_time 5) "DE-ABC" false (Some (VExpired, true)) None) initial) = [OPnc (PRes PUnknown (Some MadeHashes))]
  /\ snd (step (Pnc all_on pnc_on Online (at_time 5) "DE-ABC" false (Some (VIssuerNotFound, true)) (Some PExpired)) initial) = [OPnc (PRes PExpired (Some Certificate))].
Proof. vm_compute. split; reflexivity. Qed.
(** A contract is presented before the first connection: the websocket is null. *)
Theorem C102_no_undefined_behaviour_refuted : exists cert,
  snd (step (Pnc all_on pnc_on NoSocket (at_time 5) "DE-ABC" false cert None) initial) = [OPnc PUB].
Proof. exists None. reflexivity. Qed.

(** *** C103 *)
(** A reservation is what the application says, which is asked iff the connector can be reserved. *)
Theorem C103_reservations : forall connector x profile zero callback,
  let r := reserve connector x profile zero callback in
  (snd r = true <-> x = CElse /\ profile = true /\ (connector <> 0 \/ zero = true) /\ callback <> None)
  /\ (snd r = true -> callback = Some (fst r))
  /\ (snd r = false -> fst r = match x with CFaulted => RFaulted | CPreparing => ROccupied | CElse => RRejected end)
  /\ (forall b, cancel b = true <-> b = Some true).
Proof.
  intros connector x profile zero callback r. unfold r, reserve. split; [ | split; [ | split ] ].
  - destruct x; cbn; try (split; [ discriminate | intros (X & _); discriminate ]). destruct callback as [ a | ]; cbn; [ | split; [ discriminate | tauto ] ].
    destruct profile, (Z.eqb_spec connector 0), zero; cbn; split; try discriminate; intros; repeat split; auto; try discriminate; intuition congruence.
  - destruct x; try discriminate. destruct callback as [ a | ]; try discriminate. destruct (profile && _); cbn; congruence.
  - destruct x; auto. destruct callback as [ a | ]; auto. destruct (profile && _); cbn; congruence.
  - intros [ [ | ] | ]; cbn; split; congruence.
Qed.
Example C103_reservations_ex : reserve 1 CElse true false (Some ROccupied) = (ROccupied, true) /\ reserve 0 CElse true false (Some RAccepted) = (RRejected, false)
  /\ reserve 1 CPreparing true true (Some RAccepted) = (ROccupied, false).
Proof. repeat split. Qed.
(** The cache is cleared iff it is enabled, and only it. *)
Theorem C103_clear_cache : forall h g, Forall whole h -> exists b, snd (step (ClearCache g) (after h)) = [OClear b] /\ (b = true <-> c_cache g = true)
  /\ forall tag, word tag (saw (h ++ [ClearCache g])) = (if c_cache g then None else word tag (saw h)) /\ told tag (saw (h ++ [ClearCache g])) = told tag (saw h).
Proof.
  assert (A : forall h o s, events (h ++ [o]) s = events h s ++ [(o, snd (step o (run h s)))]).
  { induction h as [ | x h IH ]; intros o s; auto. cbn [app events run]. now rewrite IH. }
  intros h g W. unfold saw, word, told. exists (c_cache g). split; [ cbn [step]; destruct (c_cache g); auto | ]. split; [ tauto | ].
  intros tag. rewrite A, !fold_left_app. cbn [fold_left step]. destruct (c_cache g); auto.
Qed.
Example C103_clear_cache_ex : let h := [StartConf "A" (ok None)] in Forall whole h /\ word "A" (saw h) = Some (ok None) /\ word "A" (saw (h ++ [ClearCache all_on])) = None
  /\ snd (step (Authorize all_on Offline (at_time 5) "A" false NoConf None) (after (h ++ [ClearCache all_on]))) = [ORes (Res invalid NoTariff true)].
Proof. cbn zeta. split; [ repeat constructor | ]. vm_compute. repeat split; reflexivity. Qed.

Print Assumptions C100_decision.
Print Assumptions C100_accepted_only_if.
Print Assumptions C100_no_undefined_behaviour_partial.
Print Assumptions C100_no_undefined_behaviour_refuted.
Print Assumptions C100_failing_query_refuted.
Print Assumptions C100_last_word_counts_refuted.
Print Assumptions C100_disabled_cache_is_not_filled_refuted.
Print Assumptions C100_tags_are_case_insensitive_refuted.
Print Assumptions C101_updates_are_answered.
Print Assumptions C101_version.
Print Assumptions C101_interrupted_update_refuted.
Print Assumptions C101_interrupted_differential_refuted.
Print Assumptions C101_greater_versions_are_accepted_refuted.
Print Assumptions C102_contracts_are_accepted_only_if.
Print Assumptions C102_what_is_sent.
Print Assumptions C102_no_undefined_behaviour_refuted.
Print Assumptions C103_reservations.
Print Assumptions C103_clear_cache.
