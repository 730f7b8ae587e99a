(** Properties C33 and C34: the security level of connections, and the order of the network slots. *)
From Coq Require Import ZArith List Bool String Ascii Lia Arith.
From Verif Require Import StrModel StrSpec StrProofs JsonModel DmSpec ConnModel ConnSpec ConnProofs ConnProofs2 ConnProofs3.
Import ListNotations.
Local Open Scope string_scope.
Local Open Scope Z_scope.

Lemma fresh_good s : fresh s -> good s.
Proof. intros (level & ps & pr & active & az & id & F & C). exact (proj1 (parse_fresh _ _ _ _ _ _ _ C F)). Qed.

(** An environment in which everything works, one in which no network can be configured, and a station with three
    profiles of the levels 1, 2 and 2. *)
Definition fine : env := mkE (fun _ => true) (fun _ => true) true true true true.
Definition no_network : env := mkE (fun _ => true) (fun _ => false) true true true true.
Definition profiles_122 : list profile := [mkP 1 1 0; mkP 2 2 0; mkP 3 2 1].
Definition station (level : Z) (ps : list profile) (priority : string) : cm :=
  match construct level ps priority None false "CS1" with Ret s => s | Throws _ => mkCm [] 0 None false 0 [] false false None 0 [] "" None false "" end.
Definition after (s : cm) (l : list op) : cm := match run s l with Ret (s', _) => s' | Throws _ => s end.
Definition seen (s : cm) (l : list op) : list event := match run s l with Ret (_, ev) => ev | Throws _ => [] end.

Lemma station_fresh level ps pr : Forall (fun p => 0 <= p_level p) ps ->
  (exists l, construct level ps pr None false "CS1" = Ret l) -> fresh (station level ps pr).
Proof.
  intros F [s E]. unfold station. rewrite E. exists level, ps, pr, None, false, "CS1". auto.
Qed.

Lemma forall2_in {A B} (R : A -> B -> Prop) l m : Forall2 R l m -> forall y, In y m -> exists x, In x l /\ R x y.
Proof.
  intros F. induction F as [|a b l m E F IH]; intros y I; [contradiction|]. destruct I as [<- | I]; [exists a; cbn; auto|].
  destruct (IH y I) as (x & X & H). exists x. cbn. auto.
Qed.

(** ** C33 *)

(** Whenever a connection is started, its profile is that of the slot tried, its level is at least the recorded one,
    and the recorded one is not changed by it. *)
Theorem connection_meets_level :
  forall s l s1 ev1 o s2 ev2 p,
    fresh s -> orderly s (l ++ [o]) -> run s l = Ret (s1, ev1) -> step s1 o = Ret (s2, ev2) -> starts ev2 p ->
    dm_level s1 <= p_level p /\ dm_level s2 = dm_level s1 /\ offered s2 (p_slot p) p /\ nth_error (slots s2) (prio s2) = Some (p_slot p).
Proof.
  intros s l s1 ev1 o s2 ev2 p F O R S ST. apply fresh_good in F.
  destruct (orderly_app _ _ _ O) as [O1 O2]. specialize (O2 _ _ R). destruct O2 as [O2 _].
  destruct (run_good _ _ _ _ R F O1) as (G & _). destruct (step_kept _ _ _ _ S G O2) as (_ & _ & K & _).
  destruct (K p ST) as (E & L & T1 & T2 & x & N & Q). assert (X := get_profile_in _ _ _ Q). destruct X as [_ <-].
  split; [|split; [|split]]; auto. apply get_profile_ok; auto.
Qed.
Print Assumptions connection_meets_level.

Example connection_meets_level_ex :
  seen (station 2 profiles_122 "1,2,3") [OConnect None fine] = [Tried 2; Start (mkP 2 2 0)] /\
  fresh (station 2 profiles_122 "1,2,3") /\ orderly (station 2 profiles_122 "1,2,3") [OConnect None fine].
Proof.
  split; [vm_compute; reflexivity|]. split.
  - apply station_fresh; [repeat constructor; cbn; lia|]. eexists. vm_compute. reflexivity.
  - cbn. auto.
Qed.

(** The recorded level never falls, also not by a restart of the process. *)
Theorem recorded_level_monotone :
  forall s l1 l2 s1 ev1 s2 ev2,
    fresh s -> orderly s (l1 ++ l2) -> run s l1 = Ret (s1, ev1) -> run s1 l2 = Ret (s2, ev2) ->
    dm_level s <= dm_level s1 /\ dm_level s1 <= dm_level s2.
Proof.
  intros s l1 l2 s1 ev1 s2 ev2 F O R1 R2. apply fresh_good in F.
  destruct (orderly_app _ _ _ O) as [O1 O2]. specialize (O2 _ _ R1).
  destruct (run_good _ _ _ _ R1 F O1) as (G & L & _). destruct (run_good _ _ _ _ R2 G O2) as (_ & L2 & _). auto.
Qed.
Print Assumptions recorded_level_monotone.

Example recorded_level_monotone_ex :
  let s := station 0 profiles_122 "2,3" in
  map dm_level [s; after s [OConnect None fine]; after s [OConnect None fine; OConfirm fine]; after s [OConnect None fine; OConfirm fine; OReboot]]
  = [0; 0; 2; 2].
Proof. vm_compute. reflexivity. Qed.

(** The first confirmation of a connection records the level of the profile it was started with. *)
Theorem confirm_records_level :
  forall s l0 s0 ev0 o s1 ev1 p l s2 ev2 e s3,
    fresh s -> orderly s (l0 ++ o :: l) ->
    run s l0 = Ret (s0, ev0) -> step s0 o = Ret (s1, ev1) -> starts ev1 p ->
    run s1 l = Ret (s2, ev2) -> no_start ev2 -> (forall o', In o' l -> ~ is_reboot o' /\ ~ is_confirm o') ->
    w_level e = true -> confirm s2 e = Ret s3 ->
    dm_level s3 = p_level p.
Proof.
  intros s l0 s0 ev0 o s1 ev1 p l s2 ev2 e s3 F O R0 S ST R NS Q W C. apply fresh_good in F.
  destruct (orderly_app _ _ _ O) as [O1 O2]. specialize (O2 _ _ R0). destruct O2 as [O2 O3]. specialize (O3 _ S).
  destruct (run_good _ _ _ _ R0 F O1) as (G0 & _).
  destruct (step_kept _ _ _ _ S G0 O2) as (G1 & _ & K & _). destruct (K p ST) as (_ & _ & T).
  destruct (run_through _ _ _ _ p R G1 O3 NS Q T) as [G2 T2].
  destruct (confirm_ok _ _ _ C G2 (proj1 T2)) as (_ & _ & _ & _ & _ & _ & H). auto.
Qed.
Print Assumptions confirm_records_level.

Example confirm_records_level_ex :
  let s := station 0 profiles_122 "2,3" in
  seen s [OConnect None fine] = [Tried 2; Start (mkP 2 2 0)] /\ dm_level (after s [OConnect None fine; OConnected; OConfirm fine]) = 2.
Proof. vm_compute. auto. Qed.

(** Once a connection was confirmed, no connection is ever started at a lower level, whatever happens afterwards,
    restarts included. *)
Theorem no_downgrade :
  forall s l0 s0 ev0 o s1 ev1 p l s2 ev2 e l3 s3 ev3 q,
    fresh s -> orderly s (l0 ++ o :: l ++ OConfirm e :: l3) ->
    run s l0 = Ret (s0, ev0) -> step s0 o = Ret (s1, ev1) -> starts ev1 p ->
    run s1 l = Ret (s2, ev2) -> no_start ev2 -> (forall o', In o' l -> ~ is_reboot o' /\ ~ is_confirm o') ->
    w_level e = true -> run s2 (OConfirm e :: l3) = Ret (s3, ev3) -> starts ev3 q ->
    p_level p <= p_level q.
Proof.
  intros s l0 s0 ev0 o s1 ev1 p l s2 ev2 e l3 s3 ev3 q F O R0 S ST R NS Q W C SQ. apply fresh_good in F.
  destruct (orderly_app _ _ _ O) as [O1 O2]. specialize (O2 _ _ R0). destruct O2 as [O2 O3]. specialize (O3 _ S).
  cbn [fst] in O3. destruct (orderly_app _ _ _ O3) as [O4 O5]. specialize (O5 _ _ R). destruct O5 as [_ O5].
  destruct (run_good _ _ _ _ R0 F O1) as (G0 & _).
  destruct (step_kept _ _ _ _ S G0 O2) as (G1 & _ & K & _). destruct (K p ST) as (_ & _ & T).
  destruct (run_through _ _ _ _ p R G1 O4 NS Q T) as [G2 T2].
  destruct (run_cons _ _ _ _ C) as (s4 & e4 & s5 & e5 & S4 & R5 & [= -> ->]). assert (S4' := S4).
  cbn [step] in S4. destruct (confirm s2 e) as [x|] eqn:CF; [|discriminate]. injection S4 as <- <-.
  destruct (confirm_ok _ _ _ CF G2 (proj1 T2)) as (G4 & _ & _ & _ & _ & _ & H).
  destruct (run_good _ _ _ _ R5 G4 (O5 _ S4')) as (_ & _ & L). rewrite <- (H p T2 W). apply L. exact SQ.
Qed.
Print Assumptions no_downgrade.

(** Connected at level 2 with slot 3, confirmed; later attempts and a restart use slots of level 2 only. *)
Example no_downgrade_ex :
  let s := station 0 [mkP 2 2 0; mkP 3 2 1; mkP 1 1 0] "3,2,1" in
  seen s [OConnect None fine; OConfirm fine; OStopped GoingAway; OTimer fine; OStopped GoingAway; OTimer fine; OReboot; OConnect None fine]
  = [Tried 3; Start (mkP 3 2 1); Tried 2; Start (mkP 2 2 0); Tried 3; Start (mkP 3 2 1); Tried 3; Start (mkP 3 2 1)].
Proof. vm_compute. reflexivity. Qed.

(** A confirmation removes the profiles below the recorded level from the device model, and from the priorities every
    slot without a remaining profile; the others stay in their order. *)
Theorem confirm_cleans_up :
  forall s e s',
    confirm s e = Ret s' -> w_profiles e = true -> w_priority e = true ->
    dm_profiles s' = filter (fun p => dm_level s' <=? p_level p) (dm_profiles s) /\
    (exists keep, split_string (dm_priority s') "," false = filter keep (split_string (dm_priority s) "," false) /\
       forall it, In it (split_string (dm_priority s) "," false) ->
         (keep it = true <-> exists p, In p (dm_profiles s') /\ it = dump_int (p_slot p))).
Proof.
  intros s e s' C W1 W2. destruct (confirm_dm _ _ _ C W1 W2) as (D & (I & J) & _).
  split; [exact D|]. eexists. split; [exact I|]. intros it H. cbv beta. rewrite existsb_exists. split.
  - intros (p & P & E). apply DmProofs.str_eq_ok in E. exists p. auto.
  - intros (p & P & ->). exists p. split; auto. apply DmProofs.str_eq_ok. reflexivity.
Qed.
Print Assumptions confirm_cleans_up.

Example confirm_cleans_up_ex :
  let s := after (station 0 profiles_122 "3,1,2") [OConnect None fine; OConfirm fine] in
  dm_profiles s = [mkP 2 2 0; mkP 3 2 1] /\ dm_priority s = "3,2".
Proof. vm_compute. auto. Qed.

(** After a confirmation the process can be started again: the slots are those left in the device model, and all the
    profiles known are of the recorded level at least. *)
Theorem restart_after_confirm :
  forall s e s',
    confirm s e = Ret s' -> w_profiles e = true -> w_priority e = true ->
    Forall (fun p => int_min <= p_slot p <= int_max) (dm_profiles s) ->
    (allow_zero_level s = true \/ exists p, In p (dm_profiles s) /\ dm_level s' <= p_level p /\ p_level p <> 0) ->
    exists s2, step s' OReboot = Ret (s2, []) /\ dm_level s2 = dm_level s' /\
      map dump_int (slots s2) = split_string (dm_priority s') "," false /\
      (forall x, In x (slots s2) -> exists p, configured (cache s2) x p) /\
      (forall p, In p (cache s2) <-> In p (dm_profiles s) /\ dm_level s' <= p_level p).
Proof.
  intros s e s' C W1 W2 R A. destruct (confirm_reboot _ _ _ C W1 W2 R A) as (s2 & E & L & X & Y & M).
  exists s2. cbn [step]. rewrite E. cbn [bind]. auto.
Qed.
Print Assumptions restart_after_confirm.

Example restart_after_confirm_ex :
  let s := after (station 0 profiles_122 "3,1,2") [OConnect None fine; OConfirm fine; OReboot] in
  slots s = [3; 2] /\ cache s = [mkP 2 2 0; mkP 3 2 1] /\ dm_level s = 2.
Proof. vm_compute. auto. Qed.

(** A profile sent by the CSMS is accepted exactly if it is valid, not below the recorded level and could be stored; it
    then replaces the profile of its slot and no other one. What is in use does not change before a restart. *)
Theorem set_network_profile_exact :
  forall s p valid e s' ok,
    set_network_profile s p valid e = (s', ok) ->
    (ok = true <-> valid = Some true /\ dm_level s <= p_level p /\ w_profiles e = true) /\
    (ok = false -> s' = s) /\
    (ok = true -> NoDup (map p_slot (dm_profiles s)) ->
       configured (dm_profiles s') (p_slot p) p /\
       (forall slot q, slot <> p_slot p -> (configured (dm_profiles s') slot q <-> configured (dm_profiles s) slot q)) /\
       NoDup (map p_slot (dm_profiles s'))) /\
    cache s' = cache s /\ slots s' = slots s /\ dm_level s' = dm_level s /\ dm_priority s' = dm_priority s.
Proof.
  intros s p valid e s' ok H. unfold set_network_profile in H.
  destruct valid as [v|]; [|injection H as <- <-; repeat split; auto; intuition discriminate].
  destruct (Z.ltb_spec (p_level p) (dm_level s)).
  { injection H as <- <-. repeat match goal with |- _ /\ _ => split end; auto; [|discriminate]. split; [discriminate|]. lia. }
  destruct v; cbn [negb] in H; [|injection H as <- <-; repeat split; auto; intuition discriminate].
  destruct (w_profiles e); [|injection H as <- <-; repeat split; auto; intuition discriminate].
  injection H as <- <-. cbn. repeat match goal with |- _ /\ _ => split end; auto; try discriminate.
  - split; auto.
  - intros _ N. destruct (override_same p _ N) as (A & B & _). split; [apply first_of_ok; auto|]. split; auto.
    intros slot q D. rewrite <- !first_of_ok. rewrite override_other; auto. tauto.
Qed.
Print Assumptions set_network_profile_exact.

Example set_network_profile_exact_ex :
  let s := station 1 profiles_122 "1,2,3" in
  dm_profiles (fst (set_network_profile s (mkP 2 3 1) (Some true) fine)) = [mkP 1 1 0; mkP 2 3 1; mkP 3 2 1] /\
  set_network_profile s (mkP 2 0 1) (Some true) fine = (s, false).
Proof. vm_compute. auto. Qed.

(** New priorities from the CSMS are accepted exactly if each of them names a slot with a profile, for whose level the
    certificates are installed in case it is above the recorded one. Accepted priorities are used after a restart. *)
Theorem set_priority_exact :
  forall s text leaf root e s' ok,
    set_priority s text leaf root e = Ret (s', ok) ->
    (ok = true <->
     w_priority e = true /\
     forall it, In it (split_string text "," false) ->
       exists n p, stoi it = Ret n /\ configured (dm_profiles s) n p /\
         (p_level p <= dm_level s \/ (p_level p = 3 -> leaf = true) /\ (2 <= p_level p -> root = true))) /\
    (ok = false -> s' = s) /\
    (ok = true -> dm_priority s' = text /\ dm_profiles s' = dm_profiles s /\ slots s' = slots s /\
       forall s2, step s' OReboot = Ret (s2, []) -> Forall2 (fun it n => stoi it = Ret n) (split_string text "," false) (slots s2) /\
         forall n, In n (slots s2) -> exists p, configured (cache s2) n p).
Proof.
  intros s text leaf root e s' ok H. unfold set_priority in H.
  destruct (validate_slots _ _ _ _ _) as [b|] eqn:V; [|discriminate]. cbn [bind] in H.
  assert (VO := validate_ok leaf root (dm_level s) (dm_profiles s) (split_string text "," false)). rewrite V, Forall_forall in VO.
  destruct b; cbn [andb] in H.
  - assert (VT := proj1 VO eq_refl). destruct (w_priority e); injection H as <- <-.
    + split; [tauto|]. split; [discriminate|]. intros _. cbn. repeat match goal with |- _ /\ _ => split end; auto.
      intros s2 R. unfold restart, construct in R. cbn in R. destruct (negb _ && _); [discriminate|].
      destruct (parse_slots _) as [ns|] eqn:P; [|discriminate]. injection R as <-. cbn.
      apply parse_slots_ok in P. split; auto. intros n I.
      destruct (forall2_in _ _ _ P n I) as (it & I1 & E1). destruct (VT it I1) as (m & p & E2 & C & _). rewrite E1 in E2. injection E2 as <-. eauto.
    + split; [|split; [auto|discriminate]]. split; [discriminate|]. intros [A _]. discriminate.
  - injection H as <- <-. split; [|split; [auto|discriminate]]. split; [discriminate|]. intros [_ A]. apply VO in A. discriminate.
Qed.
Print Assumptions set_priority_exact.

Example set_priority_exact_ex :
  let s := station 1 profiles_122 "1" in
  match set_priority s "3,1" false true fine with Ret (s', ok) => ok = true /\ slots (after s' [OReboot]) = [3; 1] | Throws _ => False end /\
  match set_priority s "3,1" false false fine with Ret (_, ok) => ok = false | Throws _ => False end /\
  match set_priority s "4" true true fine with Ret (_, ok) => ok = false | Throws _ => False end.
Proof. vm_compute. auto. Qed.

(** There is an answer unless a slot is a number that does not fit; texts that are no numbers are rejected. *)
Theorem set_priority_answers_partial :
  forall s text leaf root e,
    (forall it, In it (split_string text "," false) -> stoi it <> Throws "out_of_range") ->
    exists s' ok, set_priority s text leaf root e = Ret (s', ok) /\
      ((exists it, In it (split_string text "," false) /\ forall n, stoi it <> Ret n) -> ok = false /\ s' = s).
Proof.
  intros s text leaf root e H. unfold set_priority.
  assert (V : exists b, validate_slots (split_string text "," false) (dm_profiles s) (dm_level s) leaf root = Ret b /\
     ((exists it, In it (split_string text "," false) /\ forall n, stoi it <> Ret n) -> b = false)).
  { revert H. generalize (split_string text "," false). generalize (dm_profiles s) (dm_level s). intros ps level.
    induction l as [|x l IH]; intros H; cbn [validate_slots].
    - exists true. split; [reflexivity|]. intros (it & [] & _).
    - destruct ps as [|p0 ps0]; [exists false; auto|]. destruct (stoi x) as [n|w] eqn:E.
      + destruct (IH ltac:(intros it I; apply H; right; exact I)) as (b & B1 & B2).
        assert (B3 : (exists it, In it (x :: l) /\ forall n, stoi it <> Ret n) -> b = false).
        { intros (it & [<- |I] & N); [exfalso; apply (N n E)|]. apply B2. exists it. auto. }
        destruct (first_of n (p0 :: ps0)) as [p|]; [|exists false; auto].
        destruct (p_level p <=? level); [exists b; auto|].
        destruct ((p_level p =? 3) && negb leaf); [exists false; auto|].
        destruct ((2 <=? p_level p) && negb root); [exists false; auto|exists b; auto].
      + assert (W : w = "invalid_argument").
        { specialize (H x (or_introl eq_refl)). rewrite E in H. unfold stoi in E.
          destruct (starts_with_digit (skip_sign x)); [|congruence].
          match type of E with (if ?b then _ else _) = _ => destruct b end; congruence. }
        rewrite W. exists false. auto. }
  destruct V as (b & -> & B). cbn [bind]. destruct (b && w_priority e) eqn:A.
  - apply andb_true_iff in A. destruct A as [-> _]. eexists. eexists. split; [reflexivity|]. intros N. specialize (B N). discriminate.
  - eexists. eexists. split; [reflexivity|]. auto.
Qed.
Print Assumptions set_priority_answers_partial.

Example set_priority_answers_ex :
  split_string "1,x" "," false = ["1"; "x"] /\ stoi "x" = Throws "invalid_argument" /\
  match set_priority (station 1 profiles_122 "1") "1,x" true true fine with Ret (_, ok) => ok = false | Throws _ => False end.
Proof. vm_compute. auto. Qed.

(** ** C34 *)

(** The first attempt after a start goes to the slot with the highest priority among those that meet the recorded
    level, provided the very first slot has a profile. Afterwards the other slots that meet it are kept. *)
Theorem first_attempt :
  forall s e slot p,
    fresh s -> wants s = false -> ws s = false -> ~ In ":"%char (list_ascii_of_string (station_id s)) ->
    (exists x l q, slots s = x :: l /\ offered s x q) -> best s slot p ->
    exists s', step s (OConnect None e) = Ret (s', Tried slot :: if e_url e p && e_cfg e p then [Start p] else []) /\
      (if e_url e p && e_cfg e p then nth_error (slots s') (prio s') = Some slot else waiting s' slot) /\
      (forall x q, offered s x q -> offered s' x q) /\ In slot (slots s') /\
      (NoDup (slots s) -> (forall x, In x (slots s) -> exists q, offered s x q) ->
         in_order s' /\ forall x, In x (slots s') <-> In x (slots s) /\ exists q, offered s x q /\ dm_level s <= p_level q).
Proof.
  intros s e slot p F W S C X B.
  destruct (first_connect s e slot p F W S C X B) as (s' & ev & E & -> & H & CA & AZ & I & IO & CH).
  exists s'. cbn [step]. repeat match goal with |- _ /\ _ => split end; auto.
  - intros x q O. eapply offered_congr; [..|exact O]; auto.
  - intros ND AP. split; auto. intros x. rewrite CH. split.
    + intros [A [D|[_ D]]]; [tauto|]. exfalso. apply D. auto.
    + intros [A D]. auto.
Qed.
Print Assumptions first_attempt.

Example first_attempt_ex :
  let s := station 2 profiles_122 "1,3,2" in
  best s 3 (mkP 3 2 1) /\ seen s [OConnect None fine] = [Tried 3; Start (mkP 3 2 1)] /\ slots (after s [OConnect None fine]) = [3; 2].
Proof.
  split; [|vm_compute; auto]. exists [1], [2]. split; [reflexivity|]. split.
  - split; [|right; discriminate]. exists [mkP 1 1 0; mkP 2 2 0], []. split; [reflexivity|]. split; [reflexivity|].
    repeat constructor; discriminate.
  - split; [vm_compute; discriminate|]. intros x q [<-|[]] [H _]. apply first_of_ok in H. vm_compute in H. injection H as <-. reflexivity.
Qed.

(** While connecting keeps failing, the slots are tried one after the other in the order of their priority, starting
    again with the first one after the last one; a slot that can be configured is connected to. Nothing throws. *)
Theorem attempts_cyclic :
  forall l s x k,
    in_order s -> waiting s x -> nth_error (slots s) k = Some x ->
    Forall (fun er => snd er <> ServiceRestart) l ->
    exists s' ev, failing s l = Ret (s', ev) /\ round s (S k) l ev /\ in_order s' /\ slots s' = slots s /\
      exists y, waiting s' y /\ In y (slots s').
Proof.
  intros l s x k IO W K F. destruct (failing_ok l s x k IO W K F) as (s' & ev & A & B & C & D & E).
  exists s', ev. destruct D as (D & _). auto.
Qed.
Print Assumptions attempts_cyclic.

Definition failed_once : cm := after (station 0 profiles_122 "1,2,3") [OConnect None no_network].

Example attempts_cyclic_ex :
  waiting failed_once 1 /\ nth_error (slots failed_once) 0 = Some 1 /\ in_order failed_once /\
  match failing failed_once [(no_network, Normal); (fine, GoingAway); (no_network, Normal); (fine, Normal)] with
  | Ret (_, ev) => ev = [Tried 2; Tried 3; Start (mkP 3 2 1); Tried 1; Tried 2; Start (mkP 2 2 0)]
  | Throws _ => False
  end.
Proof.
  split; [apply waiting_failed; reflexivity|]. split; [reflexivity|]. split; [|vm_compute; reflexivity].
  constructor.
  - reflexivity.
  - apply has_colon_ok. reflexivity.
  - reflexivity.
  - change (NoDup [1; 2; 3]). repeat constructor; cbn; intuition discriminate.
  - change (forall x, In x [1; 2; 3] -> exists p, offered failed_once x p).
    intros x [<- | [<- | [<- | []]]]; eexists; apply get_profile_ok; vm_compute; reflexivity.
  - vm_compute. lia.
Qed.

(** Within any round, that is as many attempts as there are slots, every slot is tried, and every slot that can be
    configured throughout is connected to. *)
Theorem every_slot_within_a_round :
  forall l s x k slot p,
    in_order s -> waiting s x -> nth_error (slots s) k = Some x ->
    Forall (fun er => snd er <> ServiceRestart) l -> (List.length (slots s) <= List.length l)%nat ->
    In slot (slots s) -> offered s slot p ->
    exists s' ev, failing s l = Ret (s', ev) /\ In slot (tried ev) /\
      ((forall e r, In (e, r) l -> e_url e p = true /\ e_cfg e p = true) -> starts ev p).
Proof.
  intros l s x k slot p IO W K F LN I P.
  destruct (failing_ok l s x k IO W K F) as (s' & ev & A & B & _). exists s', ev. split; auto.
  destruct (In_nth (slots s) slot 0 I) as (j & J & NJ).
  destruct (position (List.length (slots s)) (S k) j J) as (i & Ii & E).
  destruct (nth_error l i) as [[e r]|] eqn:NE; [|apply nth_error_None in NE; lia].
  destruct (round_at _ _ _ _ _ _ _ B NE) as (q & Q1 & Q2 & Q3). cbv zeta in *. rewrite E, NJ in *.
  assert (q = p) as -> by (apply get_profile_ok in P, Q1; congruence).
  split.
  - clear -Q2. induction ev as [|y ev IH]; [contradiction|]. destruct Q2 as [-> |Q2]; [cbn; auto|].
    destruct y; cbn; auto.
  - intros H. apply nth_error_In in NE. destruct (H e r NE). apply Q3; auto.
Qed.
Print Assumptions every_slot_within_a_round.

Example every_slot_within_a_round_ex :
  match failing failed_once [(fine, Normal); (fine, GoingAway); (fine, Normal)] with
  | Ret (_, ev) => tried ev = [2; 3; 1] /\ starts ev (mkP 1 1 0) /\ starts ev (mkP 2 2 0) /\ starts ev (mkP 3 2 1)
  | Throws _ => False
  end.
Proof. vm_compute. intuition auto 10. Qed.

(** A slot asked for while connected is the next one tried: the connection is closed and opened again with it. *)
Theorem requested_slot_next :
  forall s slot p e0 e,
    in_order s -> ws s = true -> up s = true -> In slot (slots s) -> offered s slot p ->
    exists s' active q,
      nth_error (slots s) (prio s) = Some active /\ offered s active q /\
      run s [OConnect (Some slot) e0; ODisconnected; OStopped ServiceRestart; OTimer e] =
      Ret (s', [Close ServiceRestart; DisconnectedCb active q; Tried slot] ++ if e_url e p && e_cfg e p then [Start p] else [])%list.
Proof.
  intros s slot p e0 e IO WS UP I P. assert (IO' := IO). destruct IO' as [A B C D E F].
  destruct (nth_error (slots s) (prio s)) as [a|] eqn:NA; [|apply nth_error_None in NA; lia].
  assert (AS : active_slot s = Ret a) by (unfold active_slot, slot_at; rewrite NA; reflexivity).
  destruct (E a) as [q Q]; [eapply nth_error_In; eauto|].
  assert (P' := proj2 (get_profile_ok _ _ _) P). assert (Q' := proj2 (get_profile_ok _ _ _) Q).
  destruct (proj1 (index_of_in slot (slots s)) I) as [i Ii].
  set (s1 := set_pending (set_wants s true) (Some slot)).
  assert (S1 : step s (OConnect (Some slot) e0) = Ret (s1, [Close ServiceRestart])).
  { cbn [step]. unfold connect. destruct (slots s) as [|y l] eqn:SL; [contradiction|]. rewrite AS. cbn [bind].
    rewrite P'. fold s1. change (ws s1) with (ws s). change (up s1) with (up s). rewrite WS, UP. reflexivity. }
  assert (S2 : step s1 ODisconnected = Ret (set_up s1 false, [DisconnectedCb a q])).
  { cbn [step]. unfold on_disconnected. change (active_slot s1) with (active_slot s). rewrite AS. cbn [bind].
    change (get_profile s1 a) with (get_profile s a). rewrite Q'. reflexivity. }
  set (s2 := set_timer (set_up s1 false) (Some (Reconnect ServiceRestart))).
  assert (S3 : step (set_up s1 false) (OStopped ServiceRestart) = Ret (s2, [])).
  { cbn [step]. unfold on_stopped. change (active_slot (set_up s1 false)) with (active_slot s). rewrite AS. reflexivity. }
  assert (S4 : step s2 (OTimer e) = try_connect (set_timer s2 None) e) by reflexivity.
  rewrite (try_connect_level _ e slot p i) in S4; auto; [|apply has_colon_ok; auto].
  destruct (e_url e p && e_cfg e p); eexists _, a, q; (split; [reflexivity|]); (split; [exact Q|]);
    cbn [run]; rewrite S1; cbn [bind fst snd]; rewrite S2; cbn [bind fst snd]; rewrite S3; cbn [bind fst snd]; rewrite S4; reflexivity.
Qed.
Print Assumptions requested_slot_next.

Example requested_slot_next_ex :
  let s := after (station 0 profiles_122 "1,2,3") [OConnect None fine; OConnected] in
  ws s = true /\ up s = true /\
  seen s [OConnect (Some 3) fine; ODisconnected; OStopped ServiceRestart; OTimer fine] =
  [Close ServiceRestart; DisconnectedCb 1 (mkP 1 1 0); Tried 3; Start (mkP 3 2 1)].
Proof. vm_compute. auto. Qed.

(** After a disconnect nothing is tried any more until a connection is asked for. *)
Theorem disconnect_is_final :
  forall s l s' ev,
    run (fst (disconnect s)) l = Ret (s', ev) -> (forall o, In o l -> ~ is_connect o) ->
    tried ev = [] /\ no_start ev /\ step s ODisconnect = Ret (fst (disconnect s), if ws s then [Close Normal] else []).
Proof.
  intros s l s' ev R N. destruct (quiet_run _ _ _ _ R) as [A B]; auto.
Qed.
Print Assumptions disconnect_is_final.

Example disconnect_is_final_ex :
  let s := after (station 0 profiles_122 "1,2,3") [OConnect None fine] in
  seen s [ODisconnect; ODisconnected; OStopped Normal; OTimer fine] = [Close Normal; DisconnectedCb 1 (mkP 1 1 0)].
Proof. vm_compute. reflexivity. Qed.

(** While a connection through [p] is in use, the callbacks and options are those of [p], and the loss of a network
    interface closes it exactly if it is that of [p]. *)
Theorem callbacks_name_the_connection :
  forall s l0 s0 ev0 o s1 ev1 p l s2 ev2,
    fresh s -> orderly s (l0 ++ o :: l) ->
    run s l0 = Ret (s0, ev0) -> step s0 o = Ret (s1, ev1) -> starts ev1 p ->
    run s1 l = Ret (s2, ev2) -> no_start ev2 -> (forall o', In o' l -> ~ is_reboot o' /\ ~ is_confirm o') ->
    seen s2 [OConnected] = [ConnectedCb (p_slot p) p] /\ up (after s2 [OConnected]) = true /\
    seen s2 [ODisconnected] = [DisconnectedCb (p_slot p) p] /\ up (after s2 [ODisconnected]) = false /\
    (forall i, run s2 [ONetworkDown i] = Ret (s2, if p_iface p =? i then [Close GoingAway] else [])) /\
    run s2 [ORestartWebsocket] = Ret (s2, [Close ServiceRestart]) /\
    (forall e, run s2 [ORefresh e] = Ret (s2, if e_url e p then [Options p] else [])).
Proof.
  intros s l0 s0 ev0 o s1 ev1 p l s2 ev2 F O R0 S ST R NS Q. apply fresh_good in F.
  destruct (orderly_app _ _ _ O) as [O1 O2]. specialize (O2 _ _ R0). destruct O2 as [O2 O3]. specialize (O3 _ S).
  destruct (run_good _ _ _ _ R0 F O1) as (G0 & _).
  destruct (step_kept _ _ _ _ S G0 O2) as (G1 & _ & K & _). destruct (K p ST) as (_ & _ & T).
  destruct (run_through _ _ _ _ p R G1 O3 NS Q T) as [G2 (W & L & x & N & P)].
  assert (AS : active_slot s2 = Ret x) by (unfold active_slot, slot_at; rewrite N; reflexivity).
  assert (E := get_profile_in _ _ _ P). destruct E as [_ <-].
  unfold seen, after. cbn [run step]. unfold on_connected, on_disconnected, on_network_disconnected, restart_websocket, refresh_options.
  rewrite AS. cbn [bind]. rewrite P. cbn [bind fst snd app]. rewrite W.
  repeat match goal with |- _ /\ _ => split end; try reflexivity; intros; rewrite andb_true_r; [destruct (_ =? _)|destruct (e_url _ _)]; reflexivity.
Qed.
Print Assumptions callbacks_name_the_connection.

Example callbacks_name_the_connection_ex :
  let s := after (station 0 profiles_122 "3,2") [OConnect None fine] in
  seen s [OConnected; ONetworkDown 0; ONetworkDown 1; ORefresh fine] = [ConnectedCb 3 (mkP 3 2 1); Close GoingAway; Options (mkP 3 2 1)].
Proof. vm_compute. reflexivity. Qed.

(** If all slots have profiles of one level, nothing ever throws while the process runs. *)
Theorem no_exception_with_one_level :
  forall level s l,
    fresh s -> uniform level s -> ~ In ":"%char (list_ascii_of_string (station_id s)) -> Forall internal l ->
    exists s' ev, run s l = Ret (s', ev).
Proof.
  intros level s l (lv & ps & pr & active & az & id & F & C) U NC IN.
  destruct (parse_fresh _ _ _ _ _ _ _ C F) as (_ & _ & _ & _ & _ & _ & PO & _ & _ & _ & _ & _ & _ & PE).
  destruct (safe_run level l s) as (s' & ev & R & _); eauto.
  split; [exact U|]. split.
  - rewrite PO. destruct U as [N _]. destruct (slots s); [congruence|cbn; lia].
  - split; [intros x H; congruence|]. apply has_colon_ok. auto.
Qed.
Print Assumptions no_exception_with_one_level.

Example no_exception_with_one_level_ex :
  let s := station 0 [mkP 1 2 0; mkP 2 2 0] "1,2" in
  uniform 2 s /\ slots (after s [OConnect None fine; OConfirm fine; OStopped Normal; OTimer fine; OConfirm fine]) = [1; 2].
Proof.
  split; [|vm_compute; reflexivity]. split; [discriminate|]. split; [vm_compute; discriminate|].
  intros x I. change (slots (station 0 [mkP 1 2 0; mkP 2 2 0] "1,2")) with [1; 2] in I.
  destruct I as [<- | [<- | []]]; eexists; (split; [apply get_profile_ok; vm_compute; reflexivity|reflexivity]).
Qed.

(** ** Where the code does not do this *)

(** After a confirmation that raises the level, the index of the active slot is stale: with two slots, connected and
    confirmed through the second one, the next close of the connection throws. *)
Theorem confirm_keeps_running_refuted :
  exists s, fresh s /\ NoDup (slots s) /\ (forall x, In x (slots s) -> exists p, offered s x p) /\
    seen s [OConnect None no_network; OTimer fine; OConnected] = [Tried 1; Tried 2; Start (mkP 2 2 0); ConnectedCb 2 (mkP 2 2 0)] /\
    (exists s', run s [OConnect None no_network; OTimer fine; OConnected; OConfirm fine] = Ret (s', seen s [OConnect None no_network; OTimer fine; OConnected])
       /\ slots s' = [2] /\ step s' ODisconnected = Throws "out_of_range" /\ step s' (OStopped GoingAway) = Throws "out_of_range"
       /\ step s' (OConfirm fine) = Throws "out_of_range").
Proof.
  exists (station 0 [mkP 1 1 0; mkP 2 2 0] "1,2"). split.
  { apply station_fresh; [repeat constructor; cbn; lia|]. eexists. vm_compute. reflexivity. }
  split; [change (NoDup [1; 2]); repeat constructor; cbn; intuition discriminate|]. split.
  { change (forall x, In x [1; 2] -> exists p, offered (station 0 [mkP 1 1 0; mkP 2 2 0] "1,2") x p).
    intros x [<- | [<- | []]]; eexists; apply get_profile_ok; vm_compute; reflexivity. }
  split; [vm_compute; reflexivity|]. eexists. split; [vm_compute; reflexivity|]. vm_compute. auto.
Qed.
Print Assumptions confirm_keeps_running_refuted.

(** A second confirmation of the same connection can record the level of a profile that was never used, and remove the
    profile in use: connected at level 2, the station ends with level 3 only. *)
Theorem confirmed_level_is_used_refuted :
  exists s, fresh s /\ NoDup (slots s) /\
    let l := [OConnect None no_network; OTimer fine; OConnected; OConfirm fine; OConfirm fine] in
    seen s l = [Tried 1; Tried 2; Start (mkP 2 2 0); ConnectedCb 2 (mkP 2 2 0)] /\
    dm_level (after s l) = 3 /\ dm_profiles (after s l) = [mkP 3 3 0] /\ dm_priority (after s l) = "3".
Proof.
  exists (station 0 [mkP 1 1 0; mkP 2 2 0; mkP 3 3 0] "1,2,3"). split.
  { apply station_fresh; [repeat constructor; cbn; lia|]. eexists. vm_compute. reflexivity. }
  split; [change (NoDup [1; 2; 3]); repeat constructor; cbn; intuition discriminate|]. vm_compute. auto.
Qed.
Print Assumptions confirmed_level_is_used_refuted.

(** A slot listed twice keeps the slots behind it from ever being tried. *)
Theorem duplicate_slot_refuted :
  exists s s1, fresh s /\ (forall x, In x (slots s) -> exists p, offered s x p) /\ In 2 (slots s) /\
    step s (OConnect None no_network) = Ret (s1, [Tried 1]) /\ waiting s1 1 /\
    forall n, exists s', failing s1 (repeat (no_network, Normal) n) = Ret (s', repeat (Tried 1) n).
Proof.
  set (s := station 0 [mkP 1 1 0; mkP 2 1 0] "1,1,2"). exists s, (after s [OConnect None no_network]). split.
  { apply station_fresh; [repeat constructor; cbn; lia|]. eexists. vm_compute. reflexivity. }
  split.
  { change (forall x, In x [1; 1; 2] -> exists p, offered s x p).
    intros x [<- | [<- | [<- | []]]]; eexists; apply get_profile_ok; vm_compute; reflexivity. }
  split; [vm_compute; auto|]. split; [vm_compute; reflexivity|]. split; [apply waiting_failed; reflexivity|].
  intros n.
  assert (X : forall n t, pending t = Some 1 -> slots t = [1; 1; 2] -> prio t = 0%nat -> last_level t = dm_level t -> wants t = true ->
    station_id t = "CS1" -> cache t = [mkP 1 1 0; mkP 2 1 0] -> timer t = Some (TryNextOf 1) ->
    exists s', failing t (repeat (no_network, Normal) n) = Ret (s', repeat (Tried 1) n)).
  { clear n. induction n as [|n IH]; intros t P S PR L W I C T; [exists t; reflexivity|].
    cbn [repeat failing step]. unfold on_timer. rewrite T. cbn [set_timer slots]. rewrite S.
    change (next_slot [1; 1; 2] 1) with (Ret 1). cbn [bind].
    set (t1 := set_pending (set_timer t None) (Some 1)).
    rewrite (try_connect_level t1 no_network 1 (mkP 1 1 0) 0%nat).
    - cbn [e_url e_cfg no_network andb]. change (wants t1) with (wants t). rewrite W. cbn [existsb orb].
      destruct (IH (set_timer t1 (Some (TryNextOf 1)))) as [s' H]; auto. rewrite H. exists s'. reflexivity.
    - change (has_colon (station_id t) = false). rewrite I. reflexivity.
    - exact L.
    - change (prio t < List.length (slots t))%nat. rewrite S, PR. cbn. lia.
    - reflexivity.
    - change (index_of 1 (slots t) = Some 0%nat). rewrite S. reflexivity.
    - unfold get_profile. change (cache t1) with (cache t). rewrite C. cbn [first_of p_slot]. change (1 =? 1) with true. cbv iota. cbn [p_level]. change (1 =? 0) with false. rewrite andb_false_r. reflexivity. }
  apply X; reflexivity.
Qed.
Print Assumptions duplicate_slot_refuted.

(** A slot without a profile, which nothing prevents, is not skipped: if it is the first one the station never
    connects, and if it is a later one the attempt throws. *)
Theorem slot_without_profile_refuted :
  (exists s, fresh s /\ In 1 (slots s) /\ (exists p, offered s 1 p) /\ step s (OConnect None fine) = Ret (s, [])) /\
  (exists s, fresh s /\ In 1 (slots s) /\ (exists p, offered s 1 p) /\ run s [OConnect None no_network; OTimer fine] = Throws "runtime_error").
Proof.
  split.
  - exists (station 0 [mkP 1 1 0] "2,1"). split; [apply station_fresh; [repeat constructor; cbn; lia|eexists; vm_compute; reflexivity]|].
    split; [vm_compute; auto|]. split; [eexists; apply get_profile_ok; vm_compute; reflexivity|vm_compute; reflexivity].
  - exists (station 0 [mkP 1 1 0] "1,2"). split; [apply station_fresh; [repeat constructor; cbn; lia|eexists; vm_compute; reflexivity]|].
    split; [vm_compute; auto|]. split; [eexists; apply get_profile_ok; vm_compute; reflexivity|vm_compute; reflexivity].
Qed.
Print Assumptions slot_without_profile_refuted.

(** A priority written with a leading zero is understood, but lost with the first confirmation. *)
Theorem priority_text_refuted :
  exists s, fresh s /\ slots s = [1; 2] /\
    dm_priority (after s [OConnect None fine; OConfirm fine]) = "1" /\ slots (after s [OConnect None fine; OConfirm fine; OReboot]) = [1].
Proof.
  exists (station 0 [mkP 1 1 0; mkP 2 1 0] "1,02"). split; [apply station_fresh; [repeat constructor; cbn; lia|eexists; vm_compute; reflexivity]|].
  vm_compute. auto.
Qed.
Print Assumptions priority_text_refuted.

(** A priority that is too large a number is not rejected but throws out of the handler. *)
Theorem priority_out_of_range_refuted :
  exists s text, fresh s /\ set_priority s text true true fine = Throws "out_of_range".
Proof.
  exists (station 0 [mkP 1 1 0] "1"), "4294967296". split; [apply station_fresh; [repeat constructor; cbn; lia|eexists; vm_compute; reflexivity]|].
  vm_compute. reflexivity.
Qed.
Print Assumptions priority_out_of_range_refuted.
