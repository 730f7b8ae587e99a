(** C126: what a changed variable of the device model changes in a running OCPP 2.x station. *)
From Coq Require Import ZArith List Bool Lia.
From Verif Require Import VcModel VcSpec VcProofs.
Import ListNotations.
Local Open Scope list_scope.
Local Open Scope Z_scope.

(** After a SetVariables.req each variable has the value of the last entry accepted for it, or its old one. *)
Theorem C126_stored : forall s l, Stored (value s) l (value (fst (set_variables s l))).
Proof. intros s l. rewrite set_value_of. apply store_stored. Qed.
Print Assumptions C126_stored.

(** Whatever happens, the queue and the websocket work with the values that are stored, if no request names a variable twice. *)
Theorem C126_follows : forall f p l, Forall once l -> follows (run (start f p) l).
Proof.
  intros f p l F. apply (run_keeps follows once); [|exact F|apply follows_start]. intros s e. apply follows_step.
Qed.
Print Assumptions C126_follows.

(** So does the timer of the clock-aligned meter values, from the first accepted BootNotification on. *)
Theorem C126_aligned : forall f p l, Forall once l -> was_registered l ->
  timer_of (value (run (start f p) l) Aligned) (aligned (run (start f p) l)).
Proof.
  intros f p l F (n & I). apply in_split in I. destruct I as (a & b & ->). rewrite run_app. cbn [run].
  apply Forall_app in F. destruct F as [_ F]. inversion F; subst.
  apply (run_keeps aligned_ok once); auto; [intros s e; apply aligned_step|]. cbn. apply update_aligned_ok.
Qed.
Print Assumptions C126_aligned.

(** The heartbeat has the stored interval once the CSMS gave one, as long as the station stays registered. *)
Theorem C126_heartbeat : forall f p a n b, Forall once (a ++ Booted n :: b) -> 0 < n -> ~ In NotBooted b ->
  heartbeat (run (start f p) (a ++ Booted n :: b)) = value (run (start f p) (a ++ Booted n :: b)) Heartbeat.
Proof.
  intros f p a n b F L N. rewrite run_app. cbn [run]. apply Forall_app in F. destruct F as [_ F]. inversion F as [|e l O F']; subst.
  apply (run_keeps heart_ok (fun e => once e /\ e <> NotBooted)).
  - intros s e. apply heart_step.
  - apply Forall_forall. intros e I. split; [rewrite Forall_forall in F'; auto|]. intros ->. auto.
  - cbn. rewrite (proj2 (Z.ltb_lt 0 n) L). split; cbn; auto.
Qed.
Print Assumptions C126_heartbeat.

(** A change of HeartbeatInterval that is accepted takes effect at once in a registered station. *)
Theorem C126_heartbeat_set : forall s l i, NoDup (map i_var l) -> In i l -> takes i -> i_var i = Heartbeat -> registered s = true ->
  heartbeat (fst (set_variables s l)) = i_value i.
Proof.
  intros s l i ND I T V R. destruct (heart_set s l ND R) as [_ E]; [right; exists i; auto|].
  rewrite E, set_value_of, <- V. apply store_in; auto.
Qed.
Print Assumptions C126_heartbeat_set.

(** The connection is made anew iff a password was accepted, one is in use, and there is a connection. *)
Theorem C126_reconnect : forall s l, NoDup (map i_var l) ->
  (snd (set_variables s l) = true <-> (exists i, In i l /\ takes i /\ i_var i = Password) /\ profile s < 3 /\ socket s <> None).
Proof. intros s l ND. rewrite set_variables_eq by exact ND. rewrite vc_flag_spec. cbn. reflexivity. Qed.
Print Assumptions C126_reconnect.

(** What is refused, meant for another attribute, or for another variable changes none of the settings. *)
Theorem C126_others : forall s l, NoDup (map i_var l) -> (forall i, In i l -> takes i -> exists n, i_var i = Other n) ->
  let s' := fst (set_variables s l) in
  snd (set_variables s l) = false /\ registered s' = registered s /\ profile s' = profile s /\ heartbeat s' = heartbeat s /\
  aligned s' = aligned s /\ q_attempts s' = q_attempts s /\ q_interval s' = q_interval s /\ q_timeout s' = q_timeout s /\
  socket s' = socket s.
Proof. intros s l ND H. cbv zeta. rewrite set_variables_eq by exact ND. rewrite vc_other by exact H. cbn. auto 12. Qed.
Print Assumptions C126_others.

Definition values (v : var) : Z := match v with Heartbeat => 60 | Timeout => 30 | Aligned => 900 | Password => 1234 | _ => 5 end.
Definition one (v : var) (x : Z) : item := Item v true x true.

Example C126_case :
  let s := run (start values 1) [Connect 1; Booted 300; Set_ [one Timeout 20; one Password 77; Item Heartbeat true 5 false; one Aligned 0];
                                 Set_ [one PingInterval 9; one (Other 4) 8]; Set_ [one Heartbeat 120]] in
  q_timeout s = 20 /\ aligned s = None /\ heartbeat s = 120 /\ socket s = Some (Options 77 5 5 5 5 9) /\
  snd (set_variables s [one Password 78]) = true /\ snd (set_variables s [one Timeout 78]) = false.
Proof. vm_compute. auto 8. Qed.
Example C126_once : Forall once [Connect 1; Booted 300; Set_ [one Timeout 20; one Password 77]; Set_ [one PingInterval 9]].
Proof. repeat constructor; cbn; intuition discriminate. Qed.

(** A request that names HeartbeatInterval twice: the second value is stored, the first one is used. *)
Theorem C126_twice_refuted : exists f p l, was_registered l /\
  value (run (start f p) l) Heartbeat = 10 /\ heartbeat (run (start f p) l) = 20.
Proof.
  exists values, 1, [Booted 60; Set_ [one Heartbeat 20; one Heartbeat 10]]. split; [exists 60; left; reflexivity|]. vm_compute. auto.
Qed.
Print Assumptions C126_twice_refuted.

(** One whose second entry for a variable is refused: the first is stored, and not used. *)
Theorem C126_rejected_refuted : exists f p l, ~ follows (run (start f p) l) /\ value (run (start f p) l) Timeout = 20 /\
  q_timeout (run (start f p) l) = 30.
Proof.
  exists values, 1, [Set_ [one Timeout 20; Item Timeout true (-1) false]]. split; [|vm_compute; auto].
  intros F. apply f_timeout in F. vm_compute in F. discriminate.
Qed.
Print Assumptions C126_rejected_refuted.

(** One that sets Target before Actual. *)
Theorem C126_target_refuted : exists f p l, ~ follows (run (start f p) l) /\ value (run (start f p) l) Timeout = 20 /\
  q_timeout (run (start f p) l) = 30.
Proof.
  exists values, 1, [Set_ [Item Timeout false 20 true; one Timeout 20]]. split; [|vm_compute; auto].
  intros F. apply f_timeout in F. vm_compute in F. discriminate.
Qed.
Print Assumptions C126_target_refuted.

(** A station that is registered with the interval 0 has no heartbeat, whatever its HeartbeatInterval; one set while it was
    Pending is not used either. *)
Theorem C126_zero_refuted : exists f p l, Forall once l /\ registered (run (start f p) l) = true /\
  value (run (start f p) l) Heartbeat = 60 /\ heartbeat (run (start f p) l) = 0.
Proof.
  exists values, 1, [NotBooted; Set_ [one Heartbeat 60]; Booted 0]. split; [repeat constructor; cbn; intuition|]. vm_compute. auto.
Qed.
Print Assumptions C126_zero_refuted.
