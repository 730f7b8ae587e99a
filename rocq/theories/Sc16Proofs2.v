(** Installing, clearing and expiring charging profiles. *)

From Coq Require Import ZArith List Bool Permutation Sorted Lia.
From Coq Require Import ZifyBool.
From Verif Require Import Prof16Model Prof16Spec Sc16Model Sc16Spec.
Import ListNotations.
Open Scope Z_scope.

Lemma purpose_eqb_iff a b : purpose_eqb a b = true <-> a = b.
Proof. destruct a, b; cbn; split; congruence. Qed.
Lemma unit_eqb_iff a b : unit_eqb a b = true <-> a = b.
Proof. destruct a, b; cbn; split; congruence. Qed.
Lemma kind_eqb_iff a b : kind_eqb a b = true <-> a = b.
Proof. destruct a, b; cbn; split; congruence. Qed.

(** ** C17 acceptance *)

Lemma number_installed_spec h : number_installed h = Z.of_nat (length (all_installed h)).
Proof.
  unfold number_installed, all_installed. rewrite app_length, map_length, Nat2Z.inj_add. f_equal.
  induction (h_conns h) as [|c r IH]; cbn [fold_right flat_map]; [reflexivity|].
  rewrite !app_length, !map_length, IH. lia.
Qed.

Lemma period_ok_iff c : period_ok c = true <-> good_period c.
Proof.
  unfold period_ok, good_period. rewrite andb_true_iff, Z.leb_le.
  destruct (sp_phases c) as [n|].
  - rewrite andb_true_iff, Z.ltb_lt, Z.leb_le. split.
    + intros [H ?]. split; [assumption|]. intros m E. injection E as <-. lia.
    + intros [? H]. specialize (H n eq_refl). lia.
  - split; [intros [_ ?]; split; [assumption|discriminate]|tauto].
Qed.

Lemma validate_schedule_iff s m us :
  0 <= m <= 2147483647 ->
  (validate_schedule s m us = true <->
   Z.of_nat (length (sc_periods s)) <= m /\ In (sc_unit s) us /\
   (forall c, In c (sc_periods s) -> good_period c)).
Proof.
  intros Hm. unfold validate_schedule, to_size_t. rewrite Z.mod_small by lia.
  rewrite !andb_true_iff, Z.leb_le, existsb_exists, forallb_forall.
  assert (E1 : (exists x, In x us /\ unit_eqb (sc_unit s) x = true) <-> In (sc_unit s) us).
  { split.
    - intros (x & Hx & E). apply unit_eqb_iff in E as ->. exact Hx.
    - intros H. exists (sc_unit s). split; [exact H|]. apply unit_eqb_iff. reflexivity. }
  rewrite E1. split.
  - intros ((H1 & H2) & H3). split; [exact H1|]. split; [exact H2|].
    intros c Hc. apply period_ok_iff. apply H3; exact Hc.
  - intros (H1 & H2 & H3). split; [split; assumption|]. intros c Hc. apply period_ok_iff. apply H3; exact Hc.
Qed.

(* the last check, on any profile *)
Definition last_check (h : handler) (conn : Z) (ig : bool) (p : profile) : option profile :=
  match pf_purpose p with
  | PMax => if (conn =? 0) && negb (kind_eqb (pf_kind p) Relative) then Some p else None
  | PTxDefault => Some p
  | PTx =>
      if conn =? 0 then None
      else match nth_error (h_conns h) (Z.to_nat conn) with
           | None => None
           | Some c =>
               match c_tx c, pf_tx p with
               | None, None => if ig then Some p else None
               | None, Some _ => None
               | Some (t, _), Some t' => if t =? t' then Some p else None
               | Some _, None => Some p
               end
           end
  end.

Lemma last_check_iff h conn ig p p' :
  last_check h conn ig p = Some p' <->
  p' = p /\
  match pf_purpose p with
  | PMax => conn = 0 /\ pf_kind p <> Relative
  | PTxDefault => True
  | PTx => conn <> 0 /\ exists c, nth_error (h_conns h) (Z.to_nat conn) = Some c /\ tx_agrees ig c p
  end.
Proof.
  unfold last_check, tx_agrees. destruct (pf_purpose p).
  - destruct (Z.eqb_spec conn 0); cbn [andb].
    + destruct (kind_eqb (pf_kind p) Relative) eqn:E; cbn [negb].
      * apply kind_eqb_iff in E. split; [discriminate|tauto].
      * split.
        -- intros H; injection H as <-. split; [reflexivity|]. split; [assumption|].
           intros K. apply kind_eqb_iff in K. congruence.
        -- intros [-> _]; reflexivity.
    + split; [discriminate|tauto].
  - split; [intros H; injection H as <-; tauto|intros [-> _]; reflexivity].
  - destruct (Z.eqb_spec conn 0); [split; [discriminate|tauto]|].
    destruct (nth_error (h_conns h) (Z.to_nat conn)) as [c|].
    2:{ split; [discriminate|]. intros (_ & _ & c & E & _). discriminate. }
    assert (K : forall (Q : connector -> Prop), (exists c0, Some c = Some c0 /\ Q c0) <-> Q c).
    { intros Q. split; [intros (c0 & E & H); injection E as <-; exact H|intros H; exists c; split; [reflexivity|exact H]]. }
    rewrite (K (fun c0 => match c_tx c0 with
                          | Some (t, _) => pf_tx p = None \/ pf_tx p = Some t
                          | None => pf_tx p = None /\ ig = true end)).
    destruct (c_tx c) as [[t ts]|], (pf_tx p) as [t'|].
    + destruct (Z.eqb_spec t t').
      * subst. split; [intros H; injection H as <-; tauto|intros [-> _]; reflexivity].
      * split; [discriminate|]. intros (_ & _ & [H|H]); congruence.
    + split; [intros H; injection H as <-; tauto|intros [-> _]; reflexivity].
    + split; [discriminate|]. intros (_ & _ & H & _); discriminate.
    + destruct ig; split; try discriminate; [intros H; injection H as <-; tauto|intros [-> _]; reflexivity|].
      intros (_ & _ & _ & H); discriminate.
Qed.

Lemma validate_iff g h now p conn ig p' :
  0 <= g_max_periods g <= 2147483647 -> -2147483648 <= conn <= 2147483647 ->
  (validate_profile g h now p conn ig = Some p' <->
   acceptable g h conn ig p /\ p' = completed now p).
Proof.
  intros Hmp Hci.
  unfold validate_profile, acceptable. cbn zeta.
  rewrite number_installed_spec.
  destruct (Z.ltb_spec conn 0) as [Hc|Hc].
  { rewrite !orb_true_r. cbn [orb]. split; [discriminate|lia]. }
  assert (Hsz : to_size_t conn = conn) by (unfold to_size_t; rewrite Z.mod_small; lia).
  rewrite Hsz.
  destruct (Z.leb_spec (Z.of_nat (length (h_conns h))) conn) as [Hs|Hs]; cbn [orb].
  { split; [discriminate|lia]. }
  destruct (Z.ltb_spec (pf_stack p) 0) as [Hk|Hk]; cbn [orb].
  { split; [discriminate|lia]. }
  destruct (Z.ltb_spec (g_max_stack g) (pf_stack p)) as [Hm|Hm].
  { split; [discriminate|lia]. }
  (* fold the tail *)
  set (rest := fun q : profile =>
     if g_max_installed g <=? Z.of_nat (length (all_installed h)) then None
     else if negb (validate_schedule (pf_sched q) (g_max_periods g) (g_units g)) then None
     else match (match pf_kind q with
                 | Recurring => match pf_recur q with
                    | None => None
                    | Some k =>
                      match (if match sc_start (pf_sched q) with None => true | Some _ => false end
                             then if g_no_start g then Some (with_start q now) else None
                             else Some q) with
                      | None => None
                      | Some q => match sc_duration (pf_sched q) with
                         | Some d => Some (if match k with Daily => 86400 | Weekly => 86400 * 7 end <? d
                                           then with_duration q match k with Daily => 86400 | Weekly => 86400 * 7 end else q)
                         | None => Some q
                         end
                      end
                    end
                 | _ => Some q
                 end) with
          | None => None
          | Some q => last_check h conn ig q
          end).
  match goal with |- ?L = _ <-> _ =>
    replace L with (match (if kind_eqb (pf_kind p) Absolute && match sc_start (pf_sched p) with None => true | Some _ => false end
              then (if g_no_start g then Some (with_start p now) else None) else Some p) with
                    | None => None | Some q => rest q end) by reflexivity
  end.
  pose proof (validate_schedule_iff (pf_sched p) (g_max_periods g) (g_units g) Hmp) as Vs.
  (* behaviour of rest on a profile with the same schedule limits *)
  assert (R : forall q, sc_unit (pf_sched q) = sc_unit (pf_sched p) ->
            sc_periods (pf_sched q) = sc_periods (pf_sched p) ->
            rest q = Some p' <->
            (Z.of_nat (length (all_installed h)) < g_max_installed g /\
             validate_schedule (pf_sched p) (g_max_periods g) (g_units g) = true /\
             (match (match pf_kind q with
                 | Recurring => match pf_recur q with
                    | None => None
                    | Some k =>
                      match (if match sc_start (pf_sched q) with None => true | Some _ => false end
                             then if g_no_start g then Some (with_start q now) else None
                             else Some q) with
                      | None => None
                      | Some q => match sc_duration (pf_sched q) with
                         | Some d => Some (if match k with Daily => 86400 | Weekly => 86400 * 7 end <? d
                                           then with_duration q match k with Daily => 86400 | Weekly => 86400 * 7 end else q)
                         | None => Some q
                         end
                      end
                    end
                 | _ => Some q
                 end) with
          | None => None
          | Some q => last_check h conn ig q
          end = Some p'))).
  { intros q E1 E2. unfold rest.
    assert (Ev : validate_schedule (pf_sched q) (g_max_periods g) (g_units g) =
                 validate_schedule (pf_sched p) (g_max_periods g) (g_units g))
      by (unfold validate_schedule; rewrite E1, E2; reflexivity).
    rewrite Ev. destruct (Z.leb_spec (g_max_installed g) (Z.of_nat (length (all_installed h)))).
    - split; [discriminate|lia].
    - destruct (validate_schedule (pf_sched p) (g_max_periods g) (g_units g)); cbn [negb].
      + split; [tauto|]. intros (_ & _ & K); exact K.
      + split; [discriminate|]. intros (_ & K & _); discriminate. }
  clearbody rest.
  destruct p as [id stack pur kind [un pers dur st] tx rec from to]. cbn in *.
  destruct kind; cbn [kind_eqb andb] in *; unfold with_start, with_duration, completed in *; cbn in *.
  - (* Absolute *)
    destruct st as [s|]; cbn [andb].
    + rewrite R by reflexivity. cbn. rewrite last_check_iff. cbn. rewrite Vs. unfold tx_agrees; cbn.
      split; [intros (H1 & H2 & -> & H3)|intros (H & ->)]; repeat match goal with |- _ /\ _ => split end; try tauto; try lia; try discriminate.
    + destruct (g_no_start g).
      * rewrite R by reflexivity. cbn. rewrite last_check_iff. cbn. rewrite Vs. unfold tx_agrees; cbn.
        split; [intros (H1 & H2 & -> & H3)|intros (H & ->)]; repeat match goal with |- _ /\ _ => split end; try tauto; try lia; try discriminate.
      * split; [discriminate|]. intros ((_ & _ & _ & _ & _ & _ & H & _) & _).
        specialize (H ltac:(discriminate) eq_refl). discriminate.
  - (* Recurring *)
    rewrite R by reflexivity. cbn. destruct rec as [kk|].
    2:{ split; [intros (_ & _ & H); discriminate|]. intros ((_ & _ & _ & _ & _ & _ & _ & H & _) & _).
        exfalso. apply H; reflexivity. }
    set (lc := last_check_iff). unfold tx_agrees in *.
    destruct st as [s|]; cbn; [|destruct (g_no_start g); cbn;
      [|split; [intros (_ & _ & H); discriminate|]; intros ((_ & _ & _ & _ & _ & _ & H & _) & _);
        specialize (H ltac:(discriminate) eq_refl); discriminate]];
    (destruct kk, dur as [d|];
      try match goal with |- context [?m <? d] => destruct (Z.ltb_spec m d) end;
      [rewrite (Z.min_r d) by lia|rewrite (Z.min_l d) by lia| |
       rewrite (Z.min_r d) by lia|rewrite (Z.min_l d) by lia| ];
      rewrite lc; unfold tx_agrees; cbn; rewrite Vs;
      (split; [intros (H1 & H2 & -> & H3)|intros (H' & ->)];
       repeat match goal with |- _ /\ _ => split end; try tauto; try lia; try discriminate)).
  - (* Relative *)
    rewrite R by reflexivity. cbn. rewrite last_check_iff. cbn. rewrite Vs. unfold tx_agrees; cbn.
    assert (EQ : match st with Some _ | _ => st end = st) by (destruct st; reflexivity).
    split; [intros (H1 & H2 & -> & H3)|intros (H & ->)]; repeat match goal with |- _ /\ _ => split end; try tauto; try lia; try discriminate; try congruence.
Qed.
