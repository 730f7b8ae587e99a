(** C113, C114: availability of the connectors of an OCPP 1.6 station, and what an update of the firmware does to it. *)
From Coq Require Import ZArith List Bool Lia.
From Verif Require Import Av16Model Av16Spec Av16Proofs.
Import ListNotations.
Local Open Scope list_scope.
Local Open Scope Z_scope.

(** ** C113 *)

(** A request is rejected iff there is no such connector, scheduled iff it meets one of its connectors busy. *)
Theorem C113_answer n s c t busy : exists a l, snd (step n s (Change c t busy)) = OAnswer a :: l /\
  (a = Rejected <-> ~ 0 <= c <= Z.of_nat n) /\ (a = Scheduled <-> exists d, 1 <= d /\ addresses n c d /\ busy d = true).
Proof.
  cbn [step]. destruct ((c <=? Z.of_nat n) && (0 <=? c)) eqn:R.
  - destruct (change_spec n s c t busy R) as (s' & E & _). rewrite E. do 2 eexists. split; [reflexivity |].
    pose proof R as R'. apply andb_true_iff in R'. rewrite !Z.leb_le in R'.
    assert (X : existsb busy (targets n c) = true <-> exists d, 1 <= d /\ addresses n c d /\ busy d = true).
    { rewrite existsb_exists. split.
      - intros (d & I & B). exists d. assert (Y : existsb (Z.eqb d) (targets n c) = true) by (apply existsb_exists; exists d; split; [auto | apply Z.eqb_refl]).
        apply (targets_b n c d R) in Y. tauto.
      - intros (d & L & A & B). assert (Y : existsb (Z.eqb d) (targets n c) = true) by (apply targets_b; auto).
        apply existsb_exists in Y. destruct Y as (y & I & Y). apply Z.eqb_eq in Y. subst. eauto. }
    rewrite <- X. destruct (existsb busy (targets n c)); (split; split; try discriminate; auto; lia).
  - rewrite change_out by auto. do 2 eexists. split; [reflexivity |].
    assert (R' : ~ 0 <= c <= Z.of_nat n) by (intros Y; assert (Z : (c <=? Z.of_nat n) && (0 <=? c) = true) by (apply andb_true_iff; rewrite !Z.leb_le; lia); congruence).
    split; [tauto |]. split; [discriminate |]. intros (d & _ & A & _). apply addr_range in A. congruence.
Qed.
Print Assumptions C113_answer.

(** What is not busy is changed at once, connector 0 always, in the order of the connectors. *)
Theorem C113_at_once n s c t busy : 0 <= c <= Z.of_nat n ->
  tl (snd (step n s (Change c t busy))) =
    if c =? 0 then commands t 0 ++ flat_map (commands t) (filter (fun d => negb (busy d)) (in_order n))
    else if busy c then [] else commands t c.
Proof.
  intros H. cbn [step]. assert (R : (c <=? Z.of_nat n) && (0 <=? c) = true) by (apply andb_true_iff; rewrite !Z.leb_le; lia).
  destruct (change_spec n s c t busy R) as (s' & E & _). rewrite E. cbn [snd tl]. unfold targets. destruct (c =? 0).
  - reflexivity.
  - cbn. destruct (busy c); cbn; auto. now rewrite app_nil_r.
Qed.
Print Assumptions C113_at_once.
Theorem C113_rejected n s c t busy : ~ 0 <= c <= Z.of_nat n -> step n s (Change c t busy) = (s, [OAnswer Rejected]).
Proof.
  intros H. cbn [step]. apply change_out. apply not_true_is_false. intros X. apply andb_true_iff in X. rewrite !Z.leb_le in X. lia.
Qed.
Print Assumptions C113_rejected.

(** What is owed to a connector is done when its session has ended or its StopTransaction.conf has come, and only once. *)
Theorem C113_later n d0 s h d : happened n d0 s h ->
  (forall a p, owed n h d a p -> snd (step n s (Ended d)) = commands a d) /\
  ((forall a p, ~ owed n h d a p) -> snd (step n s (Ended d)) = []) /\
  (forall a p, ~ owed n (Ended d :: h) d a p).
Proof.
  intros H. pose proof (owed_iff n d0 _ _ H d) as O. cbn [step]. destruct (queued_spec s d) as (s' & l & E & _ & _ & _ & _ & L & _). rewrite E. cbn [snd].
  repeat split.
  - intros a p X. apply O in X. now rewrite L, X.
  - intros N. rewrite L. destruct (q s d) as [[a p] | ] eqn:Q; auto. exfalso. apply (N a p). now apply O.
  - intros a p X. inversion X; subst.
    + match goal with Y : claims _ _ |- _ => inversion Y end.
    + match goal with Y : ~ pays _ _ |- _ => apply Y end. now left.
Qed.
Print Assumptions C113_later.
Theorem C113_after_conf n d0 s h d active : happened n d0 s h ->
  exists l l', snd (step n s (StopConf (Some d) active)) = l ++ l' /\
  (forall a p, owed n h d a p -> l = commands a d) /\ ((forall a p, ~ owed n h d a p) -> l = []) /\
  (waits h -> l' = wave n active) /\ (~ waits h -> l' = []).
Proof.
  intros H. pose proof (owed_iff n d0 _ _ H d) as O. pose proof (waits_iff n d0 _ _ H) as W.
  cbn [step]. destruct (queued_spec s d) as (s' & l & E & P & _ & _ & _ & L & _). rewrite E.
  exists l, (if pending s then wave n active else []). split.
  - rewrite P. destruct (pending s); cbn [snd all_unavailable]; auto. now rewrite wave_eq.
  - repeat split.
    + intros a p X. apply O in X. now rewrite L, X.
    + intros N. rewrite L. destruct (q s d) as [[a p] | ] eqn:Q; auto. exfalso. apply (N a p). now apply O.
    + intros X. apply W in X. now rewrite X.
    + intros X. destruct (pending s); auto. exfalso. apply X. now apply W.
Qed.
Print Assumptions C113_after_conf.

(** The table remembers what was wanted last of each connector, and a start of the process makes it so: in tidy histories. *)
Theorem C113_remembered_partial n d0 s h : happened n d0 s h -> tidy n h -> forall d, db s d = wanted n d0 h d.
Proof. exact (db_wanted n d0 s h). Qed.
Print Assumptions C113_remembered_partial.
Theorem C113_boot_partial n d0 s h : happened n d0 s h -> tidy n h ->
  snd (step n s Boot) = flat_map (fun c => match wanted n d0 h c with Some Operative => [OEnable c] | Some Inoperative => [ODisable c] | None => [] end) (0 :: in_order n).
Proof.
  intros H T. cbn [step boot snd]. change (from0 n) with (0 :: in_order n). apply flat_map_ext. intros c. now rewrite (db_wanted n d0 s h H T).
Qed.
Print Assumptions C113_boot_partial.

(** ** C114 *)

(** What a state of an update that is told by the application leads to: it is told to the CSMS if there is a name for it; then,
    while firmware waits, the connectors without a transaction are made unavailable; and at the end those that are available
    according to the table are made available again. *)
Theorem C114_firmware n d0 s h signed st active : happened n d0 s h ->
  exists l l', snd (step n s (Firmware signed st active)) = l ++ l' /\
  (claims (Firmware signed st active) active -> waits (Firmware signed st active :: h) -> l = OFw signed st :: wave n active) /\
  (claims (Firmware signed st active) active -> ~ waits (Firmware signed st active :: h) -> l = [OFw signed st]) /\
  (~ claims (Firmware signed st active) active -> l = []) /\
  (In st [InstallationFailed; Installed; InstallVerificationFailed] ->
     l' = flat_map (fun c => match db s c with Some Operative => commands Operative c | _ => [] end) (0 :: in_order n)) /\
  (~ In st [InstallationFailed; Installed; InstallVerificationFailed] -> l' = []).
Proof.
  intros H. pose proof (waits_iff n d0 _ _ (hap_step n d0 s h (Firmware signed st active) H)) as W. rewrite step_pending in W.
  pose proof (claims_bi (Firmware signed st active) active) as CB. cbn [claims_b] in CB. cbn [step]. unfold firmware.
  assert (RS : forall d, restore n d = flat_map (fun c => match d c with Some Operative => commands Operative c | _ => [] end) (0 :: in_order n)).
  { intros d. unfold restore. change (from0 n) with (0 :: in_order n). apply flat_map_ext. intros c. rewrite command_eq. reflexivity. }
  destruct (signed || plain st) eqn:SP; rewrite ?SP in *.
  - destruct (notify_spec n signed st active s) as (s' & E & P & DB & _). rewrite E. cbn [snd].
    exists (OFw signed st :: if pending_after signed st (pending s) then wave n active else []), (if restores st then restore n (db s) else []).
    rewrite DB. split; [reflexivity |]. rewrite RS, <- CB. repeat split.
    + intros _ X. apply W in X. now rewrite X.
    + intros _ X. destruct (pending_after signed st (pending s)); auto. exfalso. apply X. now apply W.
    + congruence.
    + intros I. destruct st; cbn in *; auto; intuition discriminate.
    + intros I. destruct st; cbn in *; auto; intuition.
  - cbn [snd]. exists [], (if restores st then restore n (db s) else []). split; [reflexivity |]. rewrite RS, <- CB. repeat split; try discriminate.
    + intros I. destruct st; cbn in *; auto; intuition discriminate.
    + intros I. destruct st; cbn in *; auto; intuition.
Qed.
Print Assumptions C114_firmware.

(** A trigger makes the station tell the state again, with the same consequences. *)
Theorem C114_trigger n d0 s h signed active : happened n d0 s h ->
  exists st, told signed h st /\
  (waits (TriggerFw signed active :: h) -> snd (step n s (TriggerFw signed active)) = OFw signed st :: wave n active) /\
  (~ waits (TriggerFw signed active :: h) -> snd (step n s (TriggerFw signed active)) = [OFw signed st]).
Proof.
  intros H. pose proof (waits_iff n d0 _ _ (hap_step n d0 s h (TriggerFw signed active) H)) as W. rewrite step_pending in W.
  exists (status s signed). split; [now apply (told_iff n d0 s h H) |].
  cbn [step]. unfold status. destruct (notify_spec n signed (if signed then st_signed s else st_plain s) active s) as (s' & E & _). rewrite E. cbn [snd]. split.
  - intros X. apply W in X. now rewrite X.
  - intros X. destruct (pending_after _ _ _); auto. exfalso. apply X. now apply W.
Qed.
Print Assumptions C114_trigger.

(** All connectors are told to be unavailable exactly when firmware waits and there is no transaction. *)
Theorem C114_all n d0 s h o : happened n d0 s h ->
  (In OAll (snd (step n s o)) <-> exists active, claims o active /\ waits (o :: h) /\ forall d, connector n d -> active d = false).
Proof.
  intros H.
  assert (NC : forall a c, ~ In OAll (commands a c)) by (intros [ | ] [ | c | c]; cbn; intuition discriminate).
  assert (NF : forall a l, ~ In OAll (flat_map (commands a) l)) by (intros a l X; apply in_flat_map in X; destruct X as (c & _ & X); exact (NC _ _ X)).
  assert (NR : forall d l, ~ In OAll (flat_map (fun c => match d c with Some Operative => commands Operative c | _ => [] end) l)).
  { intros d l X. apply in_flat_map in X. destruct X as (c & _ & X). destruct (d c : option avail) as [[ | ] | ]; [exact (NC _ _ X) | destruct X | destruct X]. }
  assert (WV : forall active, In OAll (wave n active) <-> forall d, connector n d -> active d = false).
  { intros active. unfold wave. rewrite in_app_iff. change (in_order n) with (upto n). split.
    - intros [X | X].
      + apply in_map_iff in X. destruct X as (? & ? & _). discriminate.
      + destruct (forallb _ (upto n)) eqn:F; [ | destruct X]. rewrite forallb_forall in F. intros d C. apply in_upto in C.
        specialize (F d C). now destruct (active d).
    - intros A. right. assert (F : forallb (fun c => negb (active c)) (upto n) = true).
      { apply forallb_forall. intros d I. apply in_upto in I. now rewrite (A d I). }
      rewrite F. now left. }
  destruct o as [c t busy | c | c active | signed st active | signed active | ].
  - split.
    + cbn [step]. destruct ((c <=? Z.of_nat n) && (0 <=? c)) eqn:R.
      * destruct (change_spec n s c t busy R) as (s' & E & _). rewrite E. cbn [snd]. intros [X | X]; [discriminate | destruct (NF _ _ X)].
      * rewrite change_out by auto. cbn. intros [X | []]; discriminate.
    + intros (active & X & _). inversion X.
  - split.
    + cbn [step]. destruct (queued_spec s c) as (s' & l & E & _ & _ & _ & _ & L & _). rewrite E. cbn [snd]. rewrite L.
      destruct (q s c) as [[a p] | ]; [intros X; destruct (NC _ _ X) | intros []].
    + intros (active & X & _). inversion X.
  - pose proof (waits_iff n d0 _ _ (hap_step n d0 s h (StopConf c active) H)) as W. rewrite step_pending in W.
    assert (E : exists l, snd (step n s (StopConf c active)) = l ++ (if pending s then wave n active else []) /\ ~ In OAll l).
    { cbn [step]. destruct c as [c | ].
      - destruct (queued_spec s c) as (s' & l & E & P & _ & _ & _ & L & _). rewrite E. exists l. rewrite P. split.
        + destruct (pending s); cbn [snd all_unavailable]; auto. now rewrite wave_eq.
        + rewrite L. destruct (q s c) as [[a p] | ]; [apply NC | intros []].
      - exists []. split; [ | intros []]. destruct (pending s); cbn [snd all_unavailable app]; auto. now rewrite wave_eq. }
    destruct E as (l & E & NL). rewrite E, in_app_iff. split.
    + intros [X | X]; [contradiction |]. destruct (pending s); [ | destruct X]. exists active. repeat split; [constructor | now apply W | now apply WV].
    + intros (active' & C & Wt & A). inversion C; subst. apply W in Wt. rewrite Wt. right. now apply WV.
  - destruct (C114_firmware n d0 s h signed st active H) as (l & l' & E & A1 & A2 & A3 & A4 & A5). rewrite E, in_app_iff.
    assert (NL : ~ In OAll l').
    { destruct (in_dec (fun a b : fw => ltac:(decide equality) : {a = b} + {a <> b}) st [InstallationFailed; Installed; InstallVerificationFailed]) as [I | I].
      - rewrite (A4 I). apply NR.
      - rewrite (A5 I). intros []. }
    pose proof (waits_iff n d0 _ _ (hap_step n d0 s h (Firmware signed st active) H)) as W.
    split.
    + intros [X | X]; [ | contradiction].
      destruct (claims_b (Firmware signed st active)) as [act | ] eqn:C.
      * assert (act = active) by (cbn in C; destruct (signed || plain st); inversion C; auto). subst act. apply claims_bi in C.
        destruct (pending (fst (step n s (Firmware signed st active)))) eqn:P.
        -- assert (Wt := proj2 W eq_refl). rewrite (A1 C Wt) in X. destruct X as [X | X]; [discriminate |]. exists active. repeat split; auto. now apply WV.
        -- rewrite (A2 C) in X by (rewrite W; discriminate). destruct X as [X | []]; discriminate.
      * rewrite A3 in X by (rewrite <- claims_bi, C; discriminate). destruct X.
    + intros (act & C & Wt & A). left. assert (act = active) by (inversion C; auto). subst act. rewrite (A1 C Wt). right. now apply WV.
  - destruct (C114_trigger n d0 s h signed active H) as (st & _ & A1 & A2).
    pose proof (waits_iff n d0 _ _ (hap_step n d0 s h (TriggerFw signed active) H)) as W. split.
    + intros X. destruct (pending (fst (step n s (TriggerFw signed active)))) eqn:P.
      * assert (Wt := proj2 W eq_refl). rewrite (A1 Wt) in X. destruct X as [X | X]; [discriminate |]. exists active. repeat split; [constructor | auto | now apply WV].
      * rewrite A2 in X by (rewrite W; discriminate). destruct X as [X | []]; discriminate.
    + intros (act & C & Wt & A). inversion C; subst. rewrite (A1 Wt). right. now apply WV.
  - split.
    + cbn [step boot snd]. intros X. apply in_flat_map in X. destruct X as (c & _ & X). destruct (db s c) as [[ | ] | ]; cbn in X; intuition discriminate.
    + intros (active & X & _). inversion X.
Qed.
Print Assumptions C114_all.

(** ** Concrete cases *)
Definition d_op : Z -> option avail := fun c => if (0 <=? c) && (c <=? 2) then Some Operative else None.
Definition none : Z -> bool := fun _ => false.
Definition one : Z -> bool := fun c => c =? 1.
Fixpoint outs (n : nat) (s : av) (os : list op) : list (list out) :=
  match os with [] => [] | o :: os => snd (step n s o) :: outs n (fst (step n s o)) os end.
Example C113_example :
  outs 2 (init d_op) [Change 0 Inoperative one; Ended 1; Change 3 Operative none; Boot; Change 2 Operative none] =
  [[OAnswer Scheduled; OZero Inoperative; ODisable 0; ODisable 2]; [ODisable 1]; [OAnswer Rejected]; [ODisable 0; ODisable 1; ODisable 2];
   [OAnswer Accepted; OEnable 2]].
Proof. vm_compute. reflexivity. Qed.
Example C113_tidy_example : tidy 2 [Change 2 Operative none; Ended 1; Change 0 Inoperative one].
Proof.
  assert (NO : forall d a p, ~ owed 2 [] d a p) by (intros d a p X; inversion X).
  assert (O1 : forall d a p, owed 2 [Change 0 Inoperative one] d a p -> d = 1 /\ p = true).
  { intros d a p X. inversion X; subst.
    - split; auto. unfold one in *. lia.
    - match goal with Y : claims _ _ |- _ => inversion Y end.
    - destruct (NO d a p); auto. }
  assert (O2 : forall d a p, ~ owed 2 [Ended 1; Change 0 Inoperative one] d a p).
  { intros d a p X. inversion X; subst.
    - match goal with Y : claims _ _ |- _ => inversion Y end.
    - match goal with Y : owed _ _ _ _ _ |- _ => apply O1 in Y; destruct Y as (-> & _) end. match goal with Y : ~ pays _ _ |- _ => apply Y; now left end. }
  apply td_change.
  - apply td_other; [ | discriminate]. apply td_change; [constructor | intros d a p X; destruct (NO _ _ _ X) | intros d a p _ X; destruct (NO _ _ _ X)].
  - intros d a p X. destruct (O2 _ _ _ X).
  - intros d a p _ X. destruct (O2 _ _ _ X).
Qed.
Example C114_example :
  outs 2 (init d_op) [Firmware false Downloading none; Firmware false Downloaded one; StopConf (Some 1) none; Firmware false InstallationFailed none] =
  [[OFw false Downloading]; [OFw false Downloaded; ODisable 2]; [ODisable 1; ODisable 1; ODisable 2; OAll];
   [OFw false InstallationFailed; OZero Operative; OEnable 0; OEnable 1; OEnable 2]].
Proof. vm_compute. reflexivity. Qed.
Lemma run_happened n d0 os : forall s h, happened n d0 s h -> happened n d0 (run n s os) (rev os ++ h).
Proof.
  induction os as [ | o os IH]; intros s h H; cbn; auto. rewrite <- app_assoc. apply IH. now constructor.
Qed.

(** ** What does not hold *)

(** That the last request counts: a request that is accepted at once is undone when what an older one has scheduled is done. *)
Theorem C113_last_refuted : exists n d0 s h, happened n d0 s h /\
  (forall o, In o h -> match o with Change _ _ _ | Ended _ => True | _ => False end) /\
  wanted n d0 h 1 = Some Operative /\ db s 1 = Some Inoperative /\ snd (step n s Boot) = [OEnable 0; ODisable 1; OEnable 2].
Proof.
  set (os := [Change 1 Inoperative one; Change 1 Operative none; Ended 1]).
  exists 2%nat, d_op, (run 2 (init d_op) os), (rev os ++ []). split; [apply run_happened; constructor |]. split.
  - cbn. intuition (subst; auto).
  - vm_compute. repeat split; reflexivity.
Qed.
Print Assumptions C113_last_refuted.

(** That a request for one connector leaves what is remembered of the others as it is: a firmware update in progress gets
    remembered as if it had been requested. *)
Theorem C113_others_refuted : exists n d0 s h, happened n d0 s h /\ db s 1 = Some Operative /\
  db (fst (step n s (Change 2 Operative none))) 1 = Some Inoperative.
Proof.
  set (os := [Firmware false Downloaded one]).
  exists 2%nat, d_op, (run 2 (init d_op) os), (rev os ++ []). split; [apply run_happened; constructor |].
  vm_compute. split; reflexivity.
Qed.
Print Assumptions C113_others_refuted.

(** That an update that has failed no longer makes connectors unavailable: one that had a transaction becomes unavailable at
    the end of its session, and nothing makes it available again. *)
Theorem C114_failed_refuted : exists n d0 s h, happened n d0 s h /\ ~ waits h /\ hd_error h = Some (Firmware false InstallationFailed one) /\
  db s 1 = Some Operative /\ snd (step n s (Ended 1)) = [ODisable 1].
Proof.
  set (os := [Firmware false Downloaded one; Firmware false InstallationFailed one]).
  exists 2%nat, d_op, (run 2 (init d_op) os), (rev os ++ []).
  assert (H : happened 2 d_op (run 2 (init d_op) os) (rev os ++ [])) by (apply run_happened; constructor).
  split; [exact H |]. split; [rewrite (waits_iff _ _ _ _ H); vm_compute; discriminate |]. vm_compute. repeat split; reflexivity.
Qed.
Print Assumptions C114_failed_refuted.

(** That an update that has been installed no longer makes connectors unavailable: a trigger does, and announces that all are. *)
Theorem C114_installed_refuted : exists n d0 s h, happened n d0 s h /\ hd_error h = Some (Firmware false Installed none) /\
  snd (step n s (TriggerFw false none)) = [OFw false Idle; ODisable 1; ODisable 2; OAll].
Proof.
  set (os := [Firmware false Downloaded none; Firmware false Installing none; Firmware false Installed none]).
  exists 2%nat, d_op, (run 2 (init d_op) os), (rev os ++ []). split; [apply run_happened; constructor |].
  vm_compute. split; reflexivity.
Qed.
Print Assumptions C114_installed_refuted.
