(** C124: how an OCPP 1.6 station changes its security profile. *)
From Coq Require Import ZArith List Bool Lia.
From Verif Require Import Sp16Model Sp16Spec Sp16Proofs.
Import ListNotations.
Open Scope Z_scope.

(** A request is accepted iff the profile is higher than the present one and possible with what is installed; otherwise
    nothing changes. *)
Theorem C124_accepted : forall s v key ca leaf,
  (snd (step s (Request v key ca leaf)) = [true] <-> prof s < v /\ possible v key ca leaf) /\
  (snd (step s (Request v key ca leaf)) <> [true] -> step s (Request v key ca leaf) = (s, [false])) /\
  prof (fst (step s (Request v key ca leaf))) = prof s.
Proof.
  intros s v key ca leaf. rewrite <- allowed_spec. cbn [step]. destruct (allowed (prof s) v key ca leaf); cbn [fst snd].
  - split; [easy|]. split; [congruence|]. unfold disconnect. cbn [conn]. now destruct (conn s).
  - split; [easy|]. split; [reflexivity|reflexivity].
Qed.
Print Assumptions C124_accepted.

(** While connected, the configured profile is that of the connection. *)
Theorem C124_connected : forall p h b s q, happened p h b s -> undisturbed h -> conn s = Up q -> prof s = q /\ q = b.
Proof. intros p h b s q H U C. destruct (happened_phase p h b s H U); cbn [conn prof] in *; try discriminate; now injection C as <-. Qed.
Print Assumptions C124_connected.

(** The profile is never lower than that of the last connection, and higher only while the higher one is tried, once. *)
Theorem C124_never_lower : forall p h b s, happened p h b s -> undisturbed h ->
  b <= prof s /\ (b < prof s -> timer s = Some (prof s, 1) \/ conn s = Trying (prof s) 1).
Proof. intros p h b s H U. destruct (happened_phase p h b s H U); cbn [prof timer conn]; split; intros; try lia; auto. Qed.
Print Assumptions C124_never_lower.

(** When a request was accepted and the connection is closed, the new profile is tried. *)
Theorem C124_tried : forall p h b s v key ca leaf, happened p h b s -> undisturbed h -> conn s = Up b -> closing s = false ->
  prof s < v -> possible v key ca leaf ->
  let s' := fst (step (fst (step (fst (step s (Request v key ca leaf))) Closed)) Timer) in conn s' = Trying v 1 /\ prof s' = v.
Proof.
  intros p h b s v key ca leaf H U C F L Q. cbn zeta.
  assert (A : allowed (prof s) v key ca leaf = true) by now apply allowed_spec.
  destruct (happened_phase p h b s H U); cbn [conn closing prof] in *; try discriminate.
  cbn [step prof]. rewrite A. split; reflexivity.
Qed.
Print Assumptions C124_tried.

(** When it fails the station goes back to the profile of its last connection and tries it for ever. *)
Theorem C124_comes_back : forall p h b s v a, happened p h b s -> undisturbed h -> conn s = Trying v a -> a <> -1 ->
  let s' := fst (step (fst (step s Failed)) Timer) in conn s' = Trying b (-1) /\ prof s' = b.
Proof.
  intros p h b s v a H U C A. destruct (happened_phase p h b s H U); cbn [conn] in C; try discriminate; injection C as <- <-; try congruence.
  split; reflexivity.
Qed.
Print Assumptions C124_comes_back.

(** It is always on its way: connected, trying, told to close, or waiting for the timer. *)
Theorem C124_never_stuck : forall p h b s, happened p h b s -> undisturbed h -> conn s = Idle -> exists q a, timer s = Some (q, a).
Proof. intros p h b s H U C. destruct (happened_phase p h b s H U); cbn [conn timer] in *; try discriminate; eauto. Qed.
Print Assumptions C124_never_stuck.

Lemma run p : forall l h b s, happened p h b s -> (forall e, In e l -> forall v k c f, e <> Request v k c f) ->
  exists b', happened p (rev l ++ h) b' (fold_left (fun s e => fst (step s e)) l s).
Proof.
  induction l as [|e l IH]; intros h b s H N; [now exists b|]. cbn [fold_left rev]. rewrite <- app_assoc. cbn [app].
  eapply IH; [|intros x Hx; apply N; now right]. apply hp_step; [exact H|].
  intros v key ca leaf E. exfalso. exact (N e (or_introl eq_refl) v key ca leaf E).
Qed.

(** A station that connects with 1, is told 2, fails and connects with 1 again. *)
Definition asked : state := S 1 (Some (2, 1)) None (Up 1) true (1, -1) false.
Lemma asked_happened : happened 1 [Request 2 true true false; Connected] 1 asked.
Proof.
  apply (hp_step 1 [Connected] 1 (fst (step (start 1) Connected)) (Request 2 true true false)).
  - apply (hp_step 1 [] 1 (start 1) Connected); [constructor|discriminate].
  - intros v key ca leaf _. split; [reflexivity|]. now exists 1.
Qed.
Example C124_case : let s := fold_left (fun s e => fst (step s e)) [Closed; Timer; Failed; Timer; Failed; Connected] asked in
  undisturbed (rev [Closed; Timer; Failed; Timer; Failed; Connected] ++ [Request 2 true true false; Connected]) /\
  (exists b, happened 1 (rev [Closed; Timer; Failed; Timer; Failed; Connected] ++ [Request 2 true true false; Connected]) b s) /\
  prof s = 1 /\ conn s = Up 1.
Proof.
  split; [split; [|split]; cbn; intros H; repeat (destruct H as [H|H]; [discriminate|]); exact H|]. split.
  - apply run with (b := 1); [exact asked_happened|]. intros e H v k c f ->. cbn in H. repeat (destruct H as [H|H]; [discriminate|]). exact H.
  - split; reflexivity.
Qed.
(** ... or connects with 2. *)
Example C124_up_case : let s := fold_left (fun s e => fst (step s e)) [Closed; Timer; Connected; Lost; Connected] asked in
  (exists b, happened 1 (rev [Closed; Timer; Connected; Lost; Connected] ++ [Request 2 true true false; Connected]) b s) /\ prof s = 2 /\ conn s = Up 2.
Proof.
  split; [|split; reflexivity]. apply run with (b := 1); [exact asked_happened|].
  intros e H v k c f ->. cbn in H. repeat (destruct H as [H|H]; [discriminate|]). exact H.
Qed.

(** If the station starts again while the new profile is tried, it tries only that one, though it never was connected
    with it. *)
Theorem C124_restart_refuted : exists p h b s, happened p (Restart :: h) b s /\ ~ In Stop h /\ b < prof s /\
  conn s = Trying (prof s) (-1) /\ callback s = None.
Proof.
  set (l := [Closed; Timer; Restart]).
  destruct (run 1 [Closed; Timer] _ _ _ asked_happened) as (b & H).
  { intros e H v k c f ->. cbn in H. repeat (destruct H as [H|H]; [discriminate|]). exact H. }
  assert (B : b = 1).
  { assert (P := happened_phase 1 _ _ _ H ltac:(split; [|split]; cbn; intros X; repeat (destruct X as [X|X]; [discriminate|]); exact X)).
    cbn in P. inversion P; reflexivity. }
  subst b. eexists 1, _, _, _. split; [apply hp_step; [exact H|discriminate]|]. split.
  - cbn. intros X. repeat (destruct X as [X|X]; [discriminate|]). exact X.
  - split; [reflexivity|]. split; reflexivity.
Qed.
Print Assumptions C124_restart_refuted.

(** If the station is stopped after it went back, the profile that failed is stored again, and the station begins to
    connect though it was stopped. *)
Theorem C124_stop_refuted : exists p h b s, happened p (Timer :: Closed :: Stop :: Timer :: Failed :: h) b s /\ undisturbed h /\
  stopped s = true /\ b < prof s /\ conn s = Trying (prof s) (-1).
Proof.
  destruct (run 1 [Closed; Timer; Failed; Timer] _ _ _ asked_happened) as (b & H).
  { intros e H v k c f ->. cbn in H. repeat (destruct H as [H|H]; [discriminate|]). exact H. }
  assert (B : b = 1).
  { assert (P := happened_phase 1 _ _ _ H ltac:(split; [|split]; cbn; intros X; repeat (destruct X as [X|X]; [discriminate|]); exact X)).
    cbn in P. inversion P; reflexivity. }
  subst b.
  exists 1, [Timer; Closed; Request 2 true true false; Connected]. eexists _, _.
  split; [apply hp_step; [apply hp_step; [apply hp_step; [exact H|discriminate]|discriminate]|discriminate]|].
  split; [split; [|split]; cbn; intros X; repeat (destruct X as [X|X]; [discriminate|]); exact X|].
  split; [reflexivity|]. split; reflexivity.
Qed.
Print Assumptions C124_stop_refuted.

(** Two changes made by the application, the second while the first is tried: the station goes back to the first one,
    with which it never was connected. *)
Theorem C124_twice_refuted : exists s l, s = start 0 /\
  let s' := fold_left (fun s e => fst (step s e)) l s in
  In (Request 2 true true true) l /\ In (Request 3 true true true) l /\ conn s' = Trying 2 (-1) /\ prof s' = 2 /\
  In Connected l /\ (forall l1 l2, l = l1 ++ Connected :: l2 -> conn (fold_left (fun s e => fst (step s e)) (l1 ++ [Connected]) s) = Up 0).
Proof.
  exists (start 0), [Connected; Request 2 true true true; Closed; Timer; Request 3 true true true; Closed; Timer; Failed; Timer].
  split; [reflexivity|]. cbn zeta. split; [right; now left|]. split; [do 4 right; now left|]. split; [reflexivity|]. split; [reflexivity|].
  split; [now left|]. intros l1 l2 E. destruct l1 as [|x l1]; [reflexivity|]. exfalso. injection E as _ E.
  repeat (destruct l1 as [|? l1]; [discriminate|]; injection E as _ E). destruct l1; discriminate.
Qed.
Print Assumptions C124_twice_refuted.

(** If the application calls connect_websocket while the station waits to try the new profile, the station leaves it again
    without a failure, and then changes between the two for ever. *)
Theorem C124_connect_refuted : exists h b s, happened 1 (Timer :: Connect :: h) b s /\ undisturbed h /\ ~ In Failed h /\
  conn s = Trying 2 1 /\ prof s = 1 /\
  let s2 := fst (step s Timer) in let s3 := fst (step s2 Timer) in
  prof s2 = 2 /\ prof s3 = 1 /\ fst (step s3 Timer) = s2.
Proof.
  destruct (run 1 [Closed] _ _ _ asked_happened) as (b & H).
  { intros e H v k c f ->. cbn in H. repeat (destruct H as [H|H]; [discriminate|]). exact H. }
  exists [Closed; Request 2 true true false; Connected]. eexists _, _.
  split; [apply hp_step; [apply hp_step; [exact H|discriminate]|discriminate]|].
  split; [split; [|split]; cbn; intros X; repeat (destruct X as [X|X]; [discriminate|]); exact X|].
  split; [cbn; intros X; repeat (destruct X as [X|X]; [discriminate|]); exact X|].
  split; [reflexivity|]. split; [reflexivity|]. cbn zeta. split; [reflexivity|]. split; reflexivity.
Qed.
Print Assumptions C124_connect_refuted.
