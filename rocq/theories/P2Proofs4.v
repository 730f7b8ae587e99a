(** Proofs about the OCPP 2.x composite schedule, part 4: merging, adding and converting
    periods does what the specification says. *)

From Coq Require Import ZArith List Bool Permutation Sorted Lia.
From Coq Require Import ZifyBool.
From Verif Require Import P2Model P2Spec P2Proofs P2Proofs2 P2Proofs3.
Import ListNotations.
Open Scope Z_scope.

(** ** TxProfile over TxDefaultProfile *)

Lemma plim_none (P : Z -> Prop) none x :
  grid none -> (forall v, P v -> grid v /\ v <> none) -> tri_ok P x ->
  plim_eqb (plim_of x none) (plim_all none) = silent3 x.
Proof.
  intros HN HP Hx.
  assert (G : grid3 (plim_of x none)) by (eapply plim_grid; [|exact HN|exact Hx]; intros v Hv; apply HP; exact Hv).
  destruct Hx as (H1 & H2 & H3).
  destruct (plim_eqb (plim_of x none) (plim_all none)) eqn:E.
  - apply plim_eqb_grid in E; [|exact G|repeat split; exact HN].
    unfold plim_of, plim_all in E. injection E as E1 E2 E3. unfold silent3.
    destruct (t1 x) as [a|], (t2 x) as [b|], (t3 x) as [c|]; cbn in *;
      try reflexivity; exfalso;
      repeat match goal with H : P ?v |- _ => apply HP in H; destruct H as [_ H] end; congruence.
  - unfold silent3. destruct (t1 x) as [a|] eqn:E1; [reflexivity|]. destruct (t2 x) as [b|] eqn:E2; [reflexivity|].
    destruct (t3 x) as [c|] eqn:E3; [reflexivity|]. exfalso.
    assert (plim_eqb (plim_of x none) (plim_all none) = true); [|congruence].
    apply plim_eqb_grid; [exact G|repeat split; exact HN|]. unfold plim_of, plim_all. rewrite E1, E2, E3. reflexivity.
Qed.

Lemma specifies_rep x w : rep x w -> specifies x = negb (silent w).
Proof.
  intros (E1 & E2 & E3 & E4 & E5 & E6 & _ & H1 & H2 & H3 & H4 & H5 & H6).
  unfold specifies, silent. rewrite E1, E2, E3, E4, E5, E6. cbn [no_limit_period ip_cur ip_pow ip_dcur ip_dpow ip_scur ip_spow].
  facts.
  assert (L : forall v, regular v /\ 0 <= v -> grid v /\ v <> NO_LIMIT).
  { intros v [R Hv]. apply regular_rng in R as [G _]. split; [exact G|lia]. }
  assert (D : forall v, regular v /\ v < 0 -> grid v /\ v <> NO_DISCHARGE).
  { intros v [R Hv]. apply regular_rng in R as [G B]. split; [exact G|lia]. }
  assert (S : forall v, regular v -> grid v /\ v <> NO_SETPOINT).
  { intros v R. apply regular_rng in R as [G B]. split; [exact G|lia]. }
  rewrite (plim_none _ NO_LIMIT _ grid_no_limit L H1), (plim_none _ NO_LIMIT _ grid_no_limit L H2),
    (plim_none _ NO_DISCHARGE _ grid_no_dis D H3), (plim_none _ NO_DISCHARGE _ grid_no_dis D H4),
    (plim_none _ NO_SETPOINT _ grid_flt S H5), (plim_none _ NO_SETPOINT _ grid_flt S H6).
  rewrite !negb_andb. reflexivity.
Qed.

Lemma comb_tx_rep x y a b : rep x a -> rep y b -> rep (comb_tx [x; y]) (override a b).
Proof.
  intros Hx Hy. cbn [comb_tx]. rewrite (specifies_rep _ _ Hx), (specifies_rep _ _ Hy). unfold override.
  destruct (silent a); cbn [negb]; [|exact (rep_pay x _ a eq_refl Hx)].
  destruct (silent b); cbn [negb]; [exact rep_none|exact (rep_pay y _ b eq_refl Hy)].
Qed.

(** ** equal phases *)

Lemma single_phase_ok none x :
  (forall o, In o [t1 x; t2 x; t3 x] -> is_equal (value_or o none) none = is_none o) ->
  single_phase (plim_of x none) none = plim_of (on_one x) none.
Proof.
  intros H. unfold single_phase, plim_of. cbn [l1 l2 l3].
  rewrite (H (t1 x)) by (cbn; auto). rewrite (H (t2 x)) by (cbn; auto).
  unfold on_one. pose proof (H (t3 x) ltac:(cbn; auto)) as H3. clear H.
  destruct (t1 x) as [a|] eqn:E1; cbn [is_none].
  2:{ rewrite E1. reflexivity. }
  destruct (t2 x) as [b|]; cbn [is_none value_or l1 l2 l3]; rewrite H3;
    destruct (t3 x) as [c|]; cbn [is_none value_or omin l1 l2 l3 t1 t2 t3]; try reflexivity;
    f_equal; lia.
Qed.

Lemma each_ok none share x :
  (forall o, In o [t1 x; t2 x; t3 x] -> is_equal (value_or o none) none = is_none o) ->
  (if negb (is_equal (l1 (plim_of x none)) none) &&
      (is_equal (l2 (plim_of x none)) none || is_equal (l3 (plim_of x none)) none)
   then plim_all (share (l1 (plim_of x none))) else plim_of x none) = plim_of (on_each share x) none.
Proof.
  intros H. unfold plim_of at 1 2 3. cbn [l1 l2 l3].
  rewrite (H (t1 x)) by (cbn; auto). rewrite (H (t2 x)) by (cbn; auto).
  rewrite (H (t3 x)) by (cbn; auto). clear H. unfold on_each, plim_of, plim_all.
  destruct (t1 x) as [a|] eqn:E1; cbn [is_none negb andb]; [|rewrite E1; reflexivity].
  destruct (t2 x) as [b|] eqn:E2, (t3 x) as [c|] eqn:E3; cbn [is_none orb l1 value_or];
    rewrite ?E1, ?E2, ?E3; reflexivity.
Qed.

Lemma sentinel_in (P : Z -> Prop) none x :
  (forall o, opt_ok P o -> is_equal (value_or o none) none = is_none o) -> tri_ok P x ->
  forall o, In o [t1 x; t2 x; t3 x] -> is_equal (value_or o none) none = is_none o.
Proof.
  intros H (H1 & H2 & H3) o Ho. apply H. cbn in Ho. destruct Ho as [<-|[<-|[<-|[]]]]; assumption.
Qed.

Definition eqc (n : option Z) (x : otri) : otri :=
  match n with
  | None => x
  | Some k => if k =? 1 then on_one x else if 1 <? k then on_each (fun v => v) x else x
  end.
Definition eqp (ar : arith) (n : option Z) (x : otri) : otri :=
  match n with
  | None => x
  | Some k => if k =? 1 then on_one x
              else if 1 <? k then on_each (fun v => f_div ar v (f_of_int ar k)) x else x
  end.

Lemma equalised_eq ar n w :
  equalised ar n w =
  {| w_cur := eqc n (w_cur w); w_pow := eqp ar n (w_pow w); w_dcur := eqc n (w_dcur w);
     w_dpow := eqp ar n (w_dpow w); w_scur := eqc n (w_scur w); w_spow := eqp ar n (w_spow w);
     w_phases := w_phases w |}.
Proof.
  unfold equalised, eqc, eqp. destruct n as [k|]; [|destruct w; reflexivity].
  destruct (k =? 1); [reflexivity|]. destruct (1 <? k); [reflexivity|destruct w; reflexivity].
Qed.

Lemma spread_ok ar n (P : Z -> Prop) none c p :
  (forall o, opt_ok P o -> is_equal (value_or o none) none = is_none o) ->
  tri_ok P c -> tri_ok P p ->
  set_setpoint_limit_phase_values ar (plim_of c none) (plim_of p none) none n V21 =
  (plim_of (eqc n c) none, plim_of (eqp ar n p) none).
Proof.
  intros H Hc Hp. pose proof (sentinel_in P none c H Hc) as Sc. pose proof (sentinel_in P none p H Hp) as Sp.
  unfold set_setpoint_limit_phase_values, eqc, eqp. cbn [is_v21 negb].
  destruct n as [k|]; [|reflexivity].
  destruct (Z.eqb_spec k 1) as [->|N].
  - rewrite (single_phase_ok none c Sc), (single_phase_ok none p Sp). reflexivity.
  - destruct (Z.ltb_spec k 1) as [L|L].
    + destruct (Z.ltb_spec 1 k); [lia|reflexivity].
    + destruct (Z.ltb_spec 1 k); [|lia].
      rewrite (each_ok none (fun v => v) c Sc).
      rewrite (each_ok none (fun v => f_div ar v (f_of_int ar k)) p Sp). reflexivity.
Qed.

(** a period whose discharge limits may also be the zeros of a sum *)
Definition wenc (none : Z) (x : plim) (o : otri) : Prop :=
  x = plim_of o none \/ (o = none3 /\ x = plim_all 0).

Definition wrep (x : iperiod) (w : want) : Prop :=
  ip_cur x = plim_of (w_cur w) NO_LIMIT /\ ip_pow x = plim_of (w_pow w) NO_LIMIT /\
  wenc NO_DISCHARGE (ip_dcur x) (w_dcur w) /\ wenc NO_DISCHARGE (ip_dpow x) (w_dpow w) /\
  ip_scur x = plim_of (w_scur w) NO_SETPOINT /\ ip_spow x = plim_of (w_spow w) NO_SETPOINT /\
  ip_phases x = w_phases w /\ ok_want w.

Lemma rep_wrep x w : rep x w -> wrep x w.
Proof.
  intros (E1 & E2 & E3 & E4 & E5 & E6 & E7 & T). unfold wrep, wenc.
  split; [exact E1|]. split; [exact E2|]. split; [left; exact E3|]. split; [left; exact E4|].
  split; [exact E5|]. split; [exact E6|]. split; [exact E7|]. apply tidy_ok; exact T.
Qed.

(** after equalising: a discharge limit that is not negative stands for none *)
Definition denc (x : Z) (o : option Z) : Prop :=
  match o with Some v => x = v | None => x = NO_DISCHARGE \/ 0 <= x end.
Definition denc3 (x : plim) (o : otri) : Prop := denc (l1 x) (t1 o) /\ denc (l2 x) (t2 o) /\ denc (l3 x) (t3 o).

Definition srep (x : iperiod) (w : want) : Prop :=
  ip_cur x = plim_of (w_cur w) NO_LIMIT /\ ip_pow x = plim_of (w_pow w) NO_LIMIT /\
  denc3 (ip_dcur x) (w_dcur w) /\ denc3 (ip_dpow x) (w_dpow w) /\
  ip_scur x = plim_of (w_scur w) NO_SETPOINT /\ ip_spow x = plim_of (w_spow w) NO_SETPOINT /\
  ok_want w.

Lemma denc3_plim o : denc3 (plim_of o NO_DISCHARGE) o.
Proof. destruct o as [[a|] [b|] [c|]]; repeat split; cbn; auto. Qed.

Lemma wenc_denc x o : wenc NO_DISCHARGE x o -> denc3 x o.
Proof.
  intros [->|[-> ->]]; [apply denc3_plim|]. unfold denc3, plim_all; cbn. repeat split; right; lia.
Qed.

Lemma zero_spread ar n c p : 
  (c = plim_all 0 \/ c = plim_of none3 NO_DISCHARGE) -> 
  (p = plim_all 0 \/ p = plim_of none3 NO_DISCHARGE) ->
  let '(c', p') := set_setpoint_limit_phase_values ar c p NO_DISCHARGE n V21 in
  denc3 c' none3 /\ denc3 p' none3.
Proof.
  intros Hc Hp. facts.
  assert (Z0 : is_equal 0 NO_DISCHARGE = false) by (apply ieq_far; lia).
  assert (Zn : is_equal NO_DISCHARGE NO_DISCHARGE = true) by apply is_equal_refl.
  unfold set_setpoint_limit_phase_values. cbn [is_v21 negb].
  assert (D0 : denc3 (plim_all 0) none3) by (repeat split; cbn; right; lia).
  assert (D1 : denc3 (plim_of none3 NO_DISCHARGE) none3) by (apply denc3_plim).
  assert (Dc : denc3 c none3) by (destruct Hc as [-> | ->]; assumption).
  assert (Dp : denc3 p none3) by (destruct Hp as [-> | ->]; assumption).
  assert (Sg : forall x, x = plim_all 0 \/ x = plim_of none3 NO_DISCHARGE -> denc3 (single_phase x NO_DISCHARGE) none3).
  { intros x [-> | ->].
    - unfold single_phase, plim_all. cbn [l1 l2 l3]. rewrite Z0. cbn [l1 l2 l3]. rewrite Z0.
      repeat split; cbn; [right; lia|left; reflexivity|left; reflexivity].
    - unfold single_phase, plim_of. cbn [l1 l2 l3 none3 t1 t2 t3 value_or]. rewrite Zn. apply D1. }
  destruct n as [k|]; [|split; assumption].
  destruct (k =? 1); [split; apply Sg; assumption|]. destruct (k <? 1); [split; assumption|].
  assert (Ea : forall x (f : Z -> Z), x = plim_all 0 \/ x = plim_of none3 NO_DISCHARGE ->
    (if negb (is_equal (l1 x) NO_DISCHARGE) && (is_equal (l2 x) NO_DISCHARGE || is_equal (l3 x) NO_DISCHARGE)
     then plim_all (f (l1 x)) else x) = x).
  { intros x f [-> | ->].
    - unfold plim_all. cbn [l1 l2 l3]. rewrite Z0. reflexivity.
    - unfold plim_of. cbn [l1 l2 l3 none3 t1 t2 t3 value_or]. rewrite Zn. reflexivity. }
  rewrite (Ea c (fun v => v) Hc), (Ea p (fun v => f_div ar v (f_of_int ar k)) Hp). split; assumption.
Qed.

Lemma eqc_none n : eqc n none3 = none3.
Proof. unfold eqc. destruct n as [k|]; [|reflexivity]. destruct (k =? 1); [reflexivity|]. destruct (1 <? k); reflexivity. Qed.
Lemma eqp_none ar n : eqp ar n none3 = none3.
Proof. unfold eqp. destruct n as [k|]; [|reflexivity]. destruct (k =? 1); [reflexivity|]. destruct (1 <? k); reflexivity. Qed.

(** both discharge limits come from the same kind of period *)
Definition paired (x : iperiod) (w : want) : Prop :=
  (ip_dcur x = plim_of (w_dcur w) NO_DISCHARGE /\ ip_dpow x = plim_of (w_dpow w) NO_DISCHARGE) \/
  (w_dcur w = none3 /\ w_dpow w = none3 /\ ip_dcur x = plim_all 0 /\ ip_dpow x = plim_all 0).

Lemma spread_rep ar n three x w :
  wrep x w -> paired x w -> (three = true -> ok_want (equalised ar n w)) ->
  srep (spread_period ar three n V21 x) (if three then equalised ar n w else w).
Proof.
  intros (E1 & E2 & E3 & E4 & E5 & E6 & E7 & (K1 & K2 & K3 & K4 & K5 & K6)) Hpair Hok.
  unfold spread_period. destruct three.
  - specialize (Hok eq_refl). rewrite equalised_eq in *.
    rewrite E1, E2, (spread_ok ar n okL NO_LIMIT _ _ no_lim K1 K2).
    rewrite E5, E6, (spread_ok ar n okS NO_SETPOINT _ _ no_set K5 K6).
    destruct (set_setpoint_limit_phase_values ar (ip_dcur x) (ip_dpow x) NO_DISCHARGE n V21) as [dc dw] eqn:Ed.
    unfold srep. cbn [ip_cur ip_pow ip_dcur ip_dpow ip_scur ip_spow w_cur w_pow w_dcur w_dpow w_scur w_spow].
    assert (D : denc3 dc (eqc n (w_dcur w)) /\ denc3 dw (eqp ar n (w_dpow w))).
    { destruct Hpair as [[P1 P2]|(N1 & N2 & P1 & P2)].
      - rewrite P1, P2, (spread_ok ar n okD NO_DISCHARGE _ _ no_dis K3 K4) in Ed. injection Ed as <- <-.
        split; apply denc3_plim.
      - rewrite N1, N2, eqc_none, eqp_none.
        pose proof (zero_spread ar n (ip_dcur x) (ip_dpow x) (or_introl P1) (or_introl P2)) as Z.
        rewrite Ed in Z. exact Z. }
    destruct D as [D1 D2]. repeat (split; [first [reflexivity|assumption]|]). exact Hok.
  - unfold srep. repeat (split; [first [assumption|apply wenc_denc; assumption]|]).
    unfold ok_want. tauto.
Qed.

(** ** the strictest *)

Lemma min_enc a b :
  opt_ok okL a -> opt_ok okL b ->
  get_min_limit (value_or a FLT_MAX) (value_or b NO_LIMIT) None = value_or (omin a b) FLT_MAX /\
  opt_ok okL (omin a b).
Proof.
  facts. unfold get_min_limit, okL. destruct a as [x|], b as [y|]; cbn; intros Ha Hb;
    match goal with |- context [0 <=? ?z] => destruct (Z.leb_spec 0 z) end; lia.
Qed.

Lemma max_enc a x b :
  opt_ok okD a -> opt_ok okD b -> denc x b ->
  get_max_limit (value_or a NO_DISCHARGE) x None = value_or (omax a b) NO_DISCHARGE /\
  opt_ok okD (omax a b).
Proof.
  facts. unfold get_max_limit, okD, denc. destruct a as [y|], b as [z|]; cbn; intros Ha Hb Hx;
    destruct (Z.ltb_spec x 0); try (destruct Hx as [Hx|Hx]); lia.
Qed.

Lemma min_enc3 a b :
  tri_ok okL a -> tri_ok okL b ->
  plim_lift get_min_limit (plim_of a FLT_MAX) (plim_of b NO_LIMIT) None = plim_of (three omin a b) FLT_MAX /\
  tri_ok okL (three omin a b).
Proof.
  intros (A1 & A2 & A3) (B1 & B2 & B3).
  destruct (min_enc _ _ A1 B1) as [E1 O1], (min_enc _ _ A2 B2) as [E2 O2], (min_enc _ _ A3 B3) as [E3 O3].
  unfold plim_lift, plim_of, three. cbn [l1 l2 l3 t1 t2 t3 option_map]. rewrite E1, E2, E3.
  split; [reflexivity|]. repeat split; assumption.
Qed.

Lemma max_enc3 a x b :
  tri_ok okD a -> tri_ok okD b -> denc3 x b ->
  plim_lift get_max_limit (plim_of a NO_DISCHARGE) x None = plim_of (three omax a b) NO_DISCHARGE /\
  tri_ok okD (three omax a b).
Proof.
  intros (A1 & A2 & A3) (B1 & B2 & B3) (X1 & X2 & X3).
  destruct (max_enc _ _ _ A1 B1 X1) as [E1 O1], (max_enc _ _ _ A2 B2 X2) as [E2 O2], (max_enc _ _ _ A3 B3 X3) as [E3 O3].
  unfold plim_lift, plim_of, three. cbn [l1 l2 l3 t1 t2 t3 option_map]. rewrite E1, E2, E3.
  split; [reflexivity|]. repeat split; assumption.
Qed.

(* the setpoint of another phase after one more demand *)
Definition onext (s1' s y lim' dis' : option Z) : option Z :=
  match s1' with
  | None => s
  | Some v =>
      if v <? 0
      then match s with
           | None => None
           | Some _ => omax (omax s (match y with
                                     | Some y => if y <? 0 then Some y else None
                                     | None => None
                                     end)) dis'
           end
      else omin (omin s (match y with
                         | Some y => if y <? 0 then None else Some y
                         | None => None
                         end)) lim'
  end.

Lemma onext_max v s y lim' dis' :
  v < 0 -> opt_ok okS s -> opt_ok okS y -> opt_ok okD dis' ->
  get_max_limit (value_or s FLT_MAX) (value_or y FLT_MAX) (Some (value_or dis' NO_DISCHARGE)) =
  value_or (onext (Some v) s y lim' dis') FLT_MAX /\ opt_ok okS (onext (Some v) s y lim' dis').
Proof.
  facts. intros Hv. unfold onext, get_max_limit. destruct (Z.ltb_spec v 0); [|lia].
  unfold okS, okD. destruct s as [a|], y as [b|], dis' as [d|]; cbn; intros;
    match goal with |- context [if ?z <? 0 then _ else _] => destruct (Z.ltb_spec z 0) end; cbn; lia.
Qed.

Lemma onext_min v s y lim' dis' :
  0 <= v -> opt_ok okS s -> opt_ok okS y -> opt_ok okL lim' ->
  get_min_limit (value_or s FLT_MAX) (value_or y FLT_MAX) (Some (value_or lim' FLT_MAX)) =
  value_or (onext (Some v) s y lim' dis') FLT_MAX /\ opt_ok okS (onext (Some v) s y lim' dis').
Proof.
  facts. intros Hv. unfold onext, get_min_limit. destruct (Z.ltb_spec v 0); [lia|].
  unfold okS, okL. destruct s as [a|], y as [b|], lim' as [d|]; cbn; intros;
    match goal with |- context [0 <=? ?z] => destruct (Z.leb_spec 0 z) end;
    repeat match goal with |- context [if ?z <? 0 then _ else _] => destruct (Z.ltb_spec z 0) end; cbn; lia.
Qed.

Lemma capped_ok A lim dis :
  opt_ok okS A -> opt_ok okL lim -> opt_ok okD dis -> opt_ok okS (capped A lim dis).
Proof.
  unfold okS, okL, okD, capped. destruct A as [a|]; cbn; [|tauto].
  destruct (Z.ltb_spec a 0), lim as [l|], dis as [d|]; cbn; lia.
Qed.

Lemma agree_ok A s : opt_ok okS A -> opt_ok okS s -> opt_ok okS (agree A s).
Proof.
  unfold okS, agree. destruct A as [a|], s as [b|]; cbn; try tauto. destruct (a <? 0); lia.
Qed.

Lemma first_max A s lim dis d' v :
  opt_ok okS A -> opt_ok okS s -> opt_ok okL lim -> opt_ok okD dis -> opt_ok okD d' ->
  agree A s = Some v -> v < 0 ->
  forall w, w = (if is_none s then value_or (capped A lim dis) FLT_MAX
                 else if is_none A then value_or s FLT_MAX
                 else if value_or (capped A lim dis) FLT_MAX <? 0
                      then Z.max (value_or (capped A lim dis) FLT_MAX) (value_or s FLT_MAX)
                      else Z.min (value_or (capped A lim dis) FLT_MAX) (value_or s FLT_MAX)) ->
  w < 0 /\
  get_max_limit w (value_or s FLT_MAX) (Some (value_or (omax dis d') NO_DISCHARGE)) =
  value_or (omax (Some v) (omax dis d')) FLT_MAX.
Proof.
  facts. unfold okS, okL, okD, agree, capped, get_max_limit.
  intros HA Hs HL HD HD' E Hv w ->.
  destruct A as [a|], s as [b|]; cbn [value_or is_none opt_ok omin omax] in *; try discriminate E;
    [|injection E as <- ..].
  - destruct (Z.ltb_spec a 0); injection E as E; destruct lim as [l|], dis as [d|], d' as [d'|]; cbn [value_or is_none opt_ok omin omax] in *;
      repeat match goal with |- context [if ?z <? 0 then _ else _] => destruct (Z.ltb_spec z 0) end; lia.
  - destruct (Z.ltb_spec a 0); destruct lim as [l|], dis as [d|], d' as [d'|]; cbn [value_or is_none opt_ok omin omax] in *;
      repeat match goal with |- context [if ?z <? 0 then _ else _] => destruct (Z.ltb_spec z 0) end; lia.
  - destruct lim as [l|], dis as [d|], d' as [d'|]; cbn [value_or is_none opt_ok omin omax] in *;
      repeat match goal with |- context [if ?z <? 0 then _ else _] => destruct (Z.ltb_spec z 0) end; lia.
Qed.

Lemma first_min A s lim dis l' v :
  opt_ok okS A -> opt_ok okS s -> opt_ok okL lim -> opt_ok okD dis -> opt_ok okL l' ->
  agree A s = Some v -> 0 <= v ->
  forall w, w = (if is_none s then value_or (capped A lim dis) FLT_MAX
                 else if is_none A then value_or s FLT_MAX
                 else if value_or (capped A lim dis) FLT_MAX <? 0
                      then Z.max (value_or (capped A lim dis) FLT_MAX) (value_or s FLT_MAX)
                      else Z.min (value_or (capped A lim dis) FLT_MAX) (value_or s FLT_MAX)) ->
  0 <= w /\
  get_min_limit w (value_or s FLT_MAX) (Some (value_or (omin lim l') FLT_MAX)) =
  value_or (omin (Some v) (omin lim l')) FLT_MAX.
Proof.
  facts. unfold okS, okL, okD, agree, capped, get_min_limit.
  intros HA Hs HL HD HD' E Hv w ->.
  destruct A as [a|], s as [b|]; cbn [value_or is_none opt_ok omin omax] in *; try discriminate E;
    [|injection E as <- ..].
  - destruct (Z.ltb_spec a 0); injection E as E; destruct lim as [l|], dis as [d|], l' as [l'|]; cbn [value_or is_none opt_ok omin omax] in *;
      repeat match goal with |- context [if ?z <? 0 then _ else _] => destruct (Z.ltb_spec z 0) end;
      match goal with |- context [0 <=? ?z] => destruct (Z.leb_spec 0 z) end; lia.
  - destruct (Z.ltb_spec a 0); destruct lim as [l|], dis as [d|], l' as [l'|]; cbn [value_or is_none opt_ok omin omax] in *;
      repeat match goal with |- context [if ?z <? 0 then _ else _] => destruct (Z.ltb_spec z 0) end;
      match goal with |- context [0 <=? ?z] => destruct (Z.leb_spec 0 z) end; lia.
  - destruct lim as [l|], dis as [d|], l' as [l'|]; cbn [value_or is_none opt_ok omin omax] in *;
      repeat match goal with |- context [if ?z <? 0 then _ else _] => destruct (Z.ltb_spec z 0) end;
      match goal with |- context [0 <=? ?z] => destruct (Z.leb_spec 0 z) end; lia.
Qed.

Lemma sp_step A lim dis o2 o3 s L D :
  opt_ok okS A -> tri_ok okL lim -> tri_ok okD dis -> opt_ok okS o2 -> opt_ok okS o3 ->
  tri_ok okS s -> tri_ok okL L -> tri_ok okD D ->
  let A' := agree A (t1 s) in
  let lim' := three omin lim L in
  let dis' := three omax dis D in
  let n2 := onext A' o2 (t2 s) (t2 lim') (t2 dis') in
  let n3 := onext A' o3 (t3 s) (t3 lim') (t3 dis') in
  get_set_setpoint_limit
    {| l1 := value_or (capped A (t1 lim) (t1 dis)) FLT_MAX; l2 := value_or o2 FLT_MAX; l3 := value_or o3 FLT_MAX |}
    (plim_of s NO_SETPOINT) (plim_of lim' FLT_MAX) (plim_of dis' NO_DISCHARGE) =
  {| l1 := value_or (capped A' (t1 lim') (t1 dis')) FLT_MAX; l2 := value_or n2 FLT_MAX; l3 := value_or n3 FLT_MAX |} /\
  opt_ok okS A' /\ opt_ok okS n2 /\ opt_ok okS n3.
Proof.
  intros HA (HL1 & HL2 & HL3) (HD1 & HD2 & HD3) H2 H3 (HS1 & HS2 & HS3) HL HD. cbn zeta.
  destruct (min_enc3 lim L) as [_ (M1 & M2 & M3)]; [repeat split; assumption|exact HL|].
  destruct (max_enc3 dis (plim_of D NO_DISCHARGE) D) as [_ (X1 & X2 & X3)];
    [repeat split; assumption|exact HD|apply denc3_plim|].
  pose proof (agree_ok _ _ HA HS1) as HA'.
  pose proof (capped_ok _ _ _ HA HL1 HD1) as HC.
  unfold get_set_setpoint_limit. cbn [l1 l2 l3 plim_of].
  rewrite no_sp_eq in *.
  assert (Q1 : is_equal (value_or (capped A (t1 lim) (t1 dis)) FLT_MAX) FLT_MAX = is_none A).
  { rewrite <- no_sp_eq. rewrite (no_set _ HC). destruct A as [a|]; [|reflexivity]. cbn [capped].
    destruct (a <? 0), (t1 lim), (t1 dis); reflexivity. }
  assert (Q2 : is_equal (value_or (t1 s) FLT_MAX) FLT_MAX = is_none (t1 s)).
  { rewrite <- no_sp_eq. apply (no_set _ HS1). }
  rewrite Q1, Q2. clear Q1 Q2.
  set (c := value_or (capped A (t1 lim) (t1 dis)) FLT_MAX) in *.
  set (w := if is_none (t1 s) then c
            else if is_none A then value_or (t1 s) FLT_MAX
            else if c <? 0 then Z.max c (value_or (t1 s) FLT_MAX) else Z.min c (value_or (t1 s) FLT_MAX)).
  assert (W : (if negb (is_none (t1 s)) && negb (is_none A)
               then set_l1 {| l1 := c; l2 := value_or o2 FLT_MAX; l3 := value_or o3 FLT_MAX |}
                      (if c <? 0 then Z.max c (value_or (t1 s) FLT_MAX) else Z.min c (value_or (t1 s) FLT_MAX))
               else if negb (is_none (t1 s))
                    then set_l1 {| l1 := c; l2 := value_or o2 FLT_MAX; l3 := value_or o3 FLT_MAX |} (value_or (t1 s) FLT_MAX)
                    else {| l1 := c; l2 := value_or o2 FLT_MAX; l3 := value_or o3 FLT_MAX |}) =
              {| l1 := w; l2 := value_or o2 FLT_MAX; l3 := value_or o3 FLT_MAX |}).
  { unfold w, set_l1. destruct (is_none (t1 s)), (is_none A); cbn [negb andb l1 l2 l3]; reflexivity. }
  rewrite W. clear W. cbn [l1].
  destruct (agree A (t1 s)) as [v|] eqn:EA.
  - assert (Hor : negb (is_none (t1 s)) || negb (is_none A) = true).
    { unfold agree in EA. destruct A, (t1 s); try discriminate EA; reflexivity. }
    rewrite Hor. unfold plim_lift. cbn [l1 l2 l3 option_map plim_of].
    destruct (Z.lt_ge_cases v 0) as [Hv|Hv].
    + destruct (first_max A (t1 s) (t1 lim) (t1 dis) (t1 D) v HA HS1 HL1 HD1 (proj1 HD) EA Hv w eq_refl) as [N1 N2].
      destruct (Z.ltb_spec w 0); [|lia].
      destruct (onext_max v o2 (t2 s) (t2 (three omin lim L)) _ Hv H2 HS2 X2) as [O2 K2].
      destruct (onext_max v o3 (t3 s) (t3 (three omin lim L)) _ Hv H3 HS3 X3) as [O3 K3].
      cbn [three t1 t2 t3] in *. rewrite N2, O2, O3.
      split; [|split; [exact HA'|split; assumption]]. f_equal. unfold capped. destruct (Z.ltb_spec v 0); [reflexivity|lia].
    + destruct (first_min A (t1 s) (t1 lim) (t1 dis) (t1 L) v HA HS1 HL1 HD1 (proj1 HL) EA Hv w eq_refl) as [N1 N2].
      destruct (Z.ltb_spec w 0); [lia|].
      destruct (onext_min v o2 (t2 s) _ (t2 (three omax dis D)) Hv H2 HS2 M2) as [O2 K2].
      destruct (onext_min v o3 (t3 s) _ (t3 (three omax dis D)) Hv H3 HS3 M3) as [O3 K3].
      cbn [three t1 t2 t3] in *. rewrite N2, O2, O3.
      split; [|split; [exact HA'|split; assumption]]. f_equal. unfold capped. destruct (Z.ltb_spec v 0); [lia|reflexivity].
  - assert (A = None /\ t1 s = None) as [EA0 ES0].
    { unfold agree in EA. destruct A, (t1 s); try discriminate EA; split; reflexivity. }
    unfold w, c in *. clear w c. rewrite EA0, ES0 in *. cbn [is_none negb orb].
    split; [reflexivity|]. cbn [onext]. split; [exact I|split; assumption].
Qed.

(** one unit of lowest_step *)
Definition ustep (a x : plim * plim * plim) : plim * plim * plim :=
  let '(c, d, s) := a in
  let '(c', d', s') := x in
  let c2 := plim_lift get_min_limit c c' None in
  let d2 := plim_lift get_max_limit d d' None in
  (c2, d2, get_set_setpoint_limit s s' c2 d2).

Definition uenc (x : plim * plim * plim) (e : otri * otri * otri) : Prop :=
  let '(c, d, s) := x in
  let '(St, L, D) := e in
  c = plim_of L NO_LIMIT /\ denc3 d D /\ s = plim_of St NO_SETPOINT /\
  tri_ok okL L /\ tri_ok okD D /\ tri_ok okS St.

Definition ostep (ph : otri -> option Z) (st : option Z * option Z * option Z * option Z)
           (x : otri * otri * otri) :=
  let '(s1, s, lim, dis) := st in
  let '(xs, xl, xd) := x in
  let s1' := agree s1 (t1 xs) in
  let lim' := omin lim (ph xl) in
  let dis' := omax dis (ph xd) in
  (s1', onext s1' s (ph xs) lim' dis', lim', dis').

Lemma other_phase_eq ph l :
  other_phase ph l = snd (fst (fst (fold_left (ostep ph) l (None, None, None, None)))).
Proof.
  unfold other_phase. do 3 f_equal.
Qed.

Definition fagree (l : list (otri * otri * otri)) := fold_left (fun a x => agree a (t1 (fst (fst x)))) l None.
Definition flim (l : list (otri * otri * otri)) := fold_left (fun a x => three omin a (snd (fst x))) l none3.
Definition fdis (l : list (otri * otri * otri)) := fold_left (fun a x => three omax a (snd x)) l none3.

Lemma ostep_state (ph : otri -> option Z) l :
  (forall f a b, ph (three f a b) = f (ph a) (ph b)) -> ph none3 = None ->
  fold_left (ostep ph) l (None, None, None, None) =
  (fagree l, other_phase ph l, ph (flim l), ph (fdis l)).
Proof.
  intros Hph H0. rewrite other_phase_eq. induction l as [|x l IH] using rev_ind.
  - cbn. rewrite H0. reflexivity.
  - unfold fagree, flim, fdis in *. rewrite !fold_left_app. cbn [fold_left]. rewrite IH.
    destruct x as [[St L] D]. cbn [ostep fst snd]. rewrite !Hph. reflexivity.
Qed.

Lemma lim1 l : fold_left (fun a (x : otri * otri * otri) => omin a (t1 (snd (fst x)))) l None = t1 (flim l).
Proof.
  unfold flim. induction l as [|x l IH] using rev_ind; [reflexivity|].
  rewrite !fold_left_app. cbn [fold_left]. rewrite IH. reflexivity.
Qed.
Lemma dis1 l : fold_left (fun a (x : otri * otri * otri) => omax a (t1 (snd x))) l None = t1 (fdis l).
Proof.
  unfold fdis. induction l as [|x l IH] using rev_ind; [reflexivity|].
  rewrite !fold_left_app. cbn [fold_left]. rewrite IH. reflexivity.
Qed.

Lemma ufold xs l :
  Forall2 uenc xs l ->
  fold_left ustep xs (plim_all FLT_MAX, plim_all NO_DISCHARGE, plim_all FLT_MAX) =
  (plim_of (flim l) FLT_MAX, plim_of (fdis l) NO_DISCHARGE, plim_of (setpoint_of l) FLT_MAX) /\
  tri_ok okL (flim l) /\ tri_ok okD (fdis l) /\ opt_ok okS (fagree l) /\ tri_ok okS (setpoint_of l).
Proof.
  revert xs. induction l as [|e l IH] using rev_ind; intros xs H.
  - inversion H; subst. cbn [fold_left]. split; [reflexivity|]. repeat split; exact I.
  - apply Forall2_app_inv_r in H as (xs0 & x1 & H1 & H2 & ->).
    inversion H2 as [|x ? ? ? Hx Hn]; subst. inversion Hn; subst. clear H2 Hn.
    destruct (IH xs0 H1) as (E & OL & OD & OA & (OS1 & OS2 & OS3)). clear IH H1.
    destruct x as [[c d] s], e as [[St L] D]. destruct Hx as (-> & Hd & -> & KL & KD & KS).
    rewrite fold_left_app, E. cbn [fold_left ustep].
    destruct (min_enc3 _ _ OL KL) as [EL OL']. destruct (max_enc3 _ _ _ OD KD Hd) as [ED OD'].
    assert (FL : flim (l ++ [(St, L, D)]) = three omin (flim l) L) by (unfold flim; rewrite fold_left_app; reflexivity).
    assert (FD : fdis (l ++ [(St, L, D)]) = three omax (fdis l) D) by (unfold fdis; rewrite fold_left_app; reflexivity).
    assert (FA : fagree (l ++ [(St, L, D)]) = agree (fagree l) (t1 St)) by (unfold fagree; rewrite fold_left_app; reflexivity).
    assert (F2 : other_phase t2 (l ++ [(St, L, D)]) =
                 onext (agree (fagree l) (t1 St)) (other_phase t2 l) (t2 St) (t2 (three omin (flim l) L)) (t2 (three omax (fdis l) D))).
    { rewrite other_phase_eq, fold_left_app, (ostep_state t2); reflexivity. }
    assert (F3 : other_phase t3 (l ++ [(St, L, D)]) =
                 onext (agree (fagree l) (t1 St)) (other_phase t3 l) (t3 St) (t3 (three omin (flim l) L)) (t3 (three omax (fdis l) D))).
    { rewrite other_phase_eq, fold_left_app, (ostep_state t3); reflexivity. }
    assert (PS : forall l, plim_of (setpoint_of l) FLT_MAX =
      {| l1 := value_or (capped (fagree l) (t1 (flim l)) (t1 (fdis l))) FLT_MAX;
         l2 := value_or (other_phase t2 l) FLT_MAX; l3 := value_or (other_phase t3 l) FLT_MAX |}).
    { intros l0. unfold plim_of, setpoint_of. cbn [t1 t2 t3]. rewrite lim1, dis1. reflexivity. }
    assert (P1 : forall l, setpoint_of l =
      {| t1 := capped (fagree l) (t1 (flim l)) (t1 (fdis l)); t2 := other_phase t2 l; t3 := other_phase t3 l |}).
    { intros l0. unfold setpoint_of. rewrite lim1, dis1. reflexivity. }
    rewrite EL, ED, !PS, FL, FD, FA, F2, F3.
    cbn [setpoint_of t2 t3] in OS2, OS3.
    destruct (sp_step (fagree l) (flim l) (fdis l) (other_phase t2 l) (other_phase t3 l) St L D
                OA OL OD OS2 OS3 KS KL KD) as (ES & K1 & K2 & K3).
    cbn zeta in *. rewrite ES. split; [reflexivity|]. split; [exact OL'|]. split; [exact OD'|].
    split; [exact K1|]. rewrite P1, FL, FD, FA, F2, F3.
    split; [|split; [exact K2|exact K3]]. cbn [t1]. apply capped_ok; [exact K1|exact (proj1 OL')|exact (proj1 OD')].
Qed.

(** ** results are among the inputs *)

Section Closed.
  Variable P : Z -> Prop.

  Lemma omin_P a b : opt_ok P a -> opt_ok P b -> opt_ok P (omin a b).
  Proof.
    destruct a as [x|], b as [y|]; cbn; auto. intros. destruct (Z.min_spec x y) as [[_ E]|[_ E]]; rewrite E; assumption.
  Qed.
  Lemma omax_P a b : opt_ok P a -> opt_ok P b -> opt_ok P (omax a b).
  Proof.
    destruct a as [x|], b as [y|]; cbn; auto. intros. destruct (Z.max_spec x y) as [[_ E]|[_ E]]; rewrite E; assumption.
  Qed.
  Lemma agree_P a b : opt_ok P a -> opt_ok P b -> opt_ok P (agree a b).
  Proof.
    destruct a as [x|], b as [y|]; cbn; auto. intros. destruct (x <? 0).
    - destruct (Z.max_spec x y) as [[_ E]|[_ E]]; rewrite E; assumption.
    - destruct (Z.min_spec x y) as [[_ E]|[_ E]]; rewrite E; assumption.
  Qed.
  Lemma capped_P a b c : opt_ok P a -> opt_ok P b -> opt_ok P c -> opt_ok P (capped a b c).
  Proof.
    intros. unfold capped. destruct a as [x|]; [|exact I].
    destruct (x <? 0); [apply omax_P|apply omin_P]; assumption.
  Qed.
  Lemma onext_P v s y l d :
    opt_ok P s -> opt_ok P y -> opt_ok P l -> opt_ok P d -> opt_ok P (onext v s y l d).
  Proof.
    intros Hs Hy Hl Hd. unfold onext. destruct v as [v|]; [|exact Hs]. destruct (v <? 0).
    - destruct s as [s|]; [|exact I]. apply omax_P; [apply omax_P; [exact Hs|]|exact Hd].
      destruct y as [y|]; [|exact I]. destruct (y <? 0); [exact Hy|exact I].
    - apply omin_P; [apply omin_P; [exact Hs|]|exact Hl].
      destruct y as [y|]; [|exact I]. destruct (y <? 0); [exact I|exact Hy].
  Qed.

  Lemma three_P f a b :
    (forall x y, opt_ok P x -> opt_ok P y -> opt_ok P (f x y)) ->
    tri_ok P a -> tri_ok P b -> tri_ok P (three f a b).
  Proof. intros H (A1 & A2 & A3) (B1 & B2 & B3). repeat split; cbn; apply H; assumption. Qed.

  Lemma flim_P l : Forall (fun x => tri_ok P (snd (fst x))) l -> tri_ok P (flim l).
  Proof.
    induction l as [|x l IH] using rev_ind; intros H; [repeat split|].
    apply Forall_app in H as [H1 H2]. inversion H2; subst. unfold flim. rewrite fold_left_app.
    apply three_P; [exact omin_P|apply IH; exact H1|assumption].
  Qed.
  Lemma fdis_P l : Forall (fun x => tri_ok P (snd x)) l -> tri_ok P (fdis l).
  Proof.
    induction l as [|x l IH] using rev_ind; intros H; [repeat split|].
    apply Forall_app in H as [H1 H2]. inversion H2; subst. unfold fdis. rewrite fold_left_app.
    apply three_P; [exact omax_P|apply IH; exact H1|assumption].
  Qed.

  Lemma other_P ph l :
    (forall f a b, ph (three f a b) = f (ph a) (ph b)) -> ph none3 = None ->
    (forall x, tri_ok P x -> opt_ok P (ph x)) ->
    Forall (fun x => tri_ok P (fst (fst x)) /\ tri_ok P (snd (fst x)) /\ tri_ok P (snd x)) l ->
    opt_ok P (other_phase ph l).
  Proof.
    intros Hph H0 HP. induction l as [|x l IH] using rev_ind; intros H; [exact I|].
    apply Forall_app in H as [H1 H2]. inversion H2 as [|? ? (K1 & K2 & K3) _]; subst.
    rewrite other_phase_eq, fold_left_app, ostep_state by assumption. destruct x as [[S L] D].
    cbn [fold_left ostep fst snd] in *.
    assert (F1 : opt_ok P (ph (flim l))).
    { apply HP, flim_P. eapply Forall_impl; [|exact H1]. cbn; tauto. }
    assert (F2 : opt_ok P (ph (fdis l))).
    { apply HP, fdis_P. eapply Forall_impl; [|exact H1]. cbn; tauto. }
    apply onext_P; [apply IH; exact H1|apply HP; exact K1| |].
    - apply omin_P; [exact F1|apply HP; exact K2].
    - apply omax_P; [exact F2|apply HP; exact K3].
  Qed.

  Lemma setpoint_P l :
    Forall (fun x => tri_ok P (fst (fst x)) /\ tri_ok P (snd (fst x)) /\ tri_ok P (snd x)) l ->
    tri_ok P (setpoint_of l).
  Proof.
    intros H. unfold setpoint_of. rewrite lim1, dis1. split; [|split]; cbn [t1 t2 t3].
    - apply capped_P.
      + fold (fagree l). clear -H. induction l as [|x l IH] using rev_ind; [exact I|].
        apply Forall_app in H as [H1 H2]. inversion H2 as [|? ? (K1 & _) _]; subst.
        unfold fagree. rewrite fold_left_app. apply agree_P; [apply IH; exact H1|apply K1].
      + apply flim_P. eapply Forall_impl; [|exact H]. cbn; tauto.
      + apply fdis_P. eapply Forall_impl; [|exact H]. cbn; tauto.
    - apply other_P; auto. intros x Hx; apply Hx.
    - apply other_P; auto. intros x Hx; apply Hx.
  Qed.
End Closed.

(** ** merge_profiles_by_lowest_limit *)

Lemma lowest_phases_eq a b : lowest_phases a b = omin a b.
Proof. destruct a as [x|], b as [y|]; cbn; try reflexivity. destruct (Z.ltb_spec y x); f_equal; lia. Qed.
Lemma highest_phases_eq a b : highest_phases a b = omax a b.
Proof. destruct a as [x|], b as [y|]; cbn; try reflexivity. destruct (Z.ltb_spec x y); f_equal; lia. Qed.

Definition cur_of3 (w : want) := (w_scur w, w_cur w, w_dcur w).
Definition pow_of3 (w : want) := (w_spow w, w_pow w, w_dpow w).

Lemma fold_lowest xs : forall x0,
  let x := fold_left lowest_step xs x0 in
  (ip_cur x, ip_dcur x, ip_scur x) =
    fold_left ustep (map (fun p => (ip_cur p, ip_dcur p, ip_scur p)) xs) (ip_cur x0, ip_dcur x0, ip_scur x0) /\
  (ip_pow x, ip_dpow x, ip_spow x) =
    fold_left ustep (map (fun p => (ip_pow p, ip_dpow p, ip_spow p)) xs) (ip_pow x0, ip_dpow x0, ip_spow x0) /\
  ip_phases x = ip_phases x0.
Proof.
  induction xs as [|y xs IH]; intros x0; cbn zeta; cbn [fold_left map]; [auto|].
  destruct (IH (lowest_step x0 y)) as (E1 & E2 & E3). cbn zeta in *. rewrite E1, E2, E3.
  repeat split.
Qed.

Lemma flim_map (f : want -> otri * otri * otri) (g : want -> otri) l :
  (forall w, snd (fst (f w)) = g w) -> fold_left (fun a w => three omin a (g w)) l none3 = flim (map f l).
Proof.
  intros H. unfold flim. induction l as [|w l IH] using rev_ind; [reflexivity|].
  rewrite map_app, !fold_left_app, IH. cbn [map fold_left]. rewrite H. reflexivity.
Qed.
Lemma fdis_map (f : want -> otri * otri * otri) (g : want -> otri) l :
  (forall w, snd (f w) = g w) -> fold_left (fun a w => three omax a (g w)) l none3 = fdis (map f l).
Proof.
  intros H. unfold fdis. induction l as [|w l IH] using rev_ind; [reflexivity|].
  rewrite map_app, !fold_left_app, IH. cbn [map fold_left]. rewrite H. reflexivity.
Qed.

Lemma replace_lim o : tri_ok okL o -> replace_max (plim_of o FLT_MAX) FLT_MAX NO_LIMIT = plim_of o NO_LIMIT.
Proof.
  intros (H1 & H2 & H3).
  assert (R : forall x, opt_ok okL x ->
    (if is_equal (value_or x FLT_MAX) FLT_MAX then NO_LIMIT else value_or x FLT_MAX) = value_or x NO_LIMIT).
  { intros x Hx. rewrite <- no_sp_eq. rewrite no_set; [destruct x; reflexivity|].
    destruct x as [x|]; [|exact I]. destruct Hx. unfold opt_ok, okS. lia. }
  unfold replace_max, plim_of. cbn [l1 l2 l3]. rewrite !R by assumption. reflexivity.
Qed.
Lemma replace_dis o : tri_ok okD o ->
  replace_max (plim_of o NO_DISCHARGE) NO_DISCHARGE NO_DISCHARGE = plim_of o NO_DISCHARGE.
Proof.
  intros (H1 & H2 & H3).
  assert (R : forall x, opt_ok okD x ->
    (if is_equal (value_or x NO_DISCHARGE) NO_DISCHARGE then NO_DISCHARGE else value_or x NO_DISCHARGE) = value_or x NO_DISCHARGE).
  { intros x Hx. rewrite no_dis by exact Hx. destruct x; reflexivity. }
  unfold replace_max, plim_of. cbn [l1 l2 l3]. rewrite !R by assumption. reflexivity.
Qed.
Lemma replace_set o : tri_ok okS o -> replace_max (plim_of o FLT_MAX) FLT_MAX NO_SETPOINT = plim_of o NO_SETPOINT.
Proof.
  intros (H1 & H2 & H3).
  assert (R : forall x, opt_ok okS x ->
    (if is_equal (value_or x FLT_MAX) FLT_MAX then NO_SETPOINT else value_or x FLT_MAX) = value_or x NO_SETPOINT).
  { intros x Hx. rewrite <- no_sp_eq, no_set by exact Hx. destruct x; reflexivity. }
  unfold replace_max, plim_of. cbn [l1 l2 l3]. rewrite !R by assumption. reflexivity.
Qed.

Lemma regular_iff x : regular x <-> grid x /\ Z.abs x < BIG.
Proof. split; [apply regular_rng|]. intros [H1 H2]. split; [exact H1|exact H2]. Qed.

Lemma tri_and (P Q : Z -> Prop) x : tri_ok P x -> tri_ok Q x -> tri_ok (fun v => P v /\ Q v) x.
Proof.
  intros (A1 & A2 & A3) (B1 & B2 & B3). destruct x as [[a|] [b|] [c|]]; cbn in *; repeat split; cbn; auto.
Qed.

Definition three_of (v : version) (xs : list iperiod) : bool :=
  existsb (fun p => is_v21 v && uses_three_phase_values p) xs.

Lemma tidy_grid w : tidy w ->
  tri_ok grid (w_cur w) /\ tri_ok grid (w_pow w) /\ tri_ok grid (w_dcur w) /\ tri_ok grid (w_dpow w) /\
  tri_ok grid (w_scur w) /\ tri_ok grid (w_spow w).
Proof.
  intros (H1 & H2 & H3 & H4 & H5 & H6).
  split; [|split; [|split; [|split; [|split]]]]; (eapply tri_impl; [|eassumption]); cbn; intros v Hv;
    first [apply (regular_rng v Hv)|apply (regular_rng v (proj1 Hv))].
Qed.

Lemma comb_lowest_rep ar v xs ws :
  Forall2 wrep xs ws -> Forall2 paired xs ws -> Forall tidy ws ->
  (three_of v xs = true -> Forall tidy (map (equalised ar (strictest_phases ws)) ws)) ->
  rep (comb_lowest ar v xs) (strictest ar (three_of v xs) ws).
Proof.
  intros Hw Hp Ht He. unfold comb_lowest, strictest. fold (three_of v xs).
  assert (En : fold_left (fun acc p => lowest_phases acc (ip_phases p)) xs None = strictest_phases ws).
  { unfold strictest_phases. clear -Hw. generalize (@None Z). induction Hw as [|x w xs ws Hx _ IH]; intros a; [reflexivity|].
    cbn [fold_left]. rewrite lowest_phases_eq. destruct Hx as (_ & _ & _ & _ & _ & _ & -> & _). apply IH. }
  rewrite En. set (n := strictest_phases ws) in *. set (b := three_of v xs) in *.
  set (ws' := if b then map (equalised ar n) ws else ws).
  assert (Ht' : Forall tidy ws') by (unfold ws'; destruct b; [apply He; reflexivity|exact Ht]).
  assert (Hs : Forall2 srep (map (spread_period ar b n v) xs) ws').
  { assert (Hb : b = true -> v = V21).
    { unfold b, three_of. intros E. apply existsb_exists in E as (p & _ & E). destruct v; [discriminate|reflexivity]. }
    unfold ws' in *. clearbody n b. clear En ws'. destruct b.
    - specialize (He eq_refl). rewrite (Hb eq_refl). clear Hb Ht Ht'.
      induction Hw as [|x w xs ws Hx Hw IH]; [constructor|]. inversion Hp; subst. cbn [map] in *. inversion He; subst.
      constructor; [|apply IH; assumption].
      apply (spread_rep ar n true x w); [exact Hx|assumption|intros _; apply tidy_ok; assumption].
    - clear He Hb Ht Ht'. induction Hw as [|x w xs ws Hx Hw IH]; [constructor|]. inversion Hp; subst. cbn [map].
      constructor; [|apply IH; assumption].
      apply (spread_rep ar n false x w); [exact Hx|assumption|discriminate]. }
  clearbody ws'. clear Hw Hp Ht He En.
  set (ys := map (spread_period ar b n v) xs) in *. clearbody ys.
  match goal with |- context [fold_left lowest_step ys ?x] => set (x0 := x) end.
  destruct (fold_lowest ys x0) as (F1 & F2 & F3). cbn zeta in F1, F2, F3.
  set (x := fold_left lowest_step ys x0) in *.
  assert (U1 : Forall2 uenc (map (fun p => (ip_cur p, ip_dcur p, ip_scur p)) ys) (map cur_of3 ws')).
  { clear -Hs. induction Hs as [|y w ys ws' Hy _ IH]; [constructor|]. cbn [map]. constructor; [|exact IH].
    destruct Hy as (E1 & E2 & E3 & E4 & E5 & E6 & (K1 & K2 & K3 & K4 & K5 & K6)). cbn. tauto. }
  assert (U2 : Forall2 uenc (map (fun p => (ip_pow p, ip_dpow p, ip_spow p)) ys) (map pow_of3 ws')).
  { clear -Hs. induction Hs as [|y w ys ws' Hy _ IH]; [constructor|]. cbn [map]. constructor; [|exact IH].
    destruct Hy as (E1 & E2 & E3 & E4 & E5 & E6 & (K1 & K2 & K3 & K4 & K5 & K6)). cbn. tauto. }
  destruct (ufold _ _ U1) as (G1 & OL1 & OD1 & _ & OS1). destruct (ufold _ _ U2) as (G2 & OL2 & OD2 & _ & OS2).
  change (ip_cur x0, ip_dcur x0, ip_scur x0) with (plim_all FLT_MAX, plim_all NO_DISCHARGE, plim_all FLT_MAX) in F1.
  change (ip_pow x0, ip_dpow x0, ip_spow x0) with (plim_all FLT_MAX, plim_all NO_DISCHARGE, plim_all FLT_MAX) in F2.
  rewrite G1 in F1. rewrite G2 in F2. injection F1 as C1 C2 C3. injection F2 as W1 W2 W3.
  change (ip_phases x0) with n in F3.
  rewrite C1, C2, C3, W1, W2, W3, F3, !replace_lim, !replace_dis, !replace_set by assumption.
  rewrite (flim_map cur_of3 w_cur) by reflexivity. rewrite (flim_map pow_of3 w_pow) by reflexivity.
  rewrite (fdis_map cur_of3 w_dcur) by reflexivity. rewrite (fdis_map pow_of3 w_dpow) by reflexivity.
  fold cur_of3 pow_of3. unfold rep.
  cbn [ip_cur ip_pow ip_dcur ip_dpow ip_scur ip_spow ip_phases w_cur w_pow w_dcur w_dpow w_scur w_spow w_phases].
  repeat (split; [reflexivity|]).
  assert (Gr1 : Forall (fun x => tri_ok grid (fst (fst x)) /\ tri_ok grid (snd (fst x)) /\ tri_ok grid (snd x)) (map cur_of3 ws')).
  { apply Forall_map. eapply Forall_impl; [|exact Ht']. cbn. intros w Hw'. apply tidy_grid in Hw'. tauto. }
  assert (Gr2 : Forall (fun x => tri_ok grid (fst (fst x)) /\ tri_ok grid (snd (fst x)) /\ tri_ok grid (snd x)) (map pow_of3 ws')).
  { apply Forall_map. eapply Forall_impl; [|exact Ht']. cbn. intros w Hw'. apply tidy_grid in Hw'. tauto. }
  unfold tidy. cbn [w_cur w_pow w_dcur w_dpow w_scur w_spow].
  assert (TL : forall l, Forall (fun x => tri_ok grid (fst (fst x)) /\ tri_ok grid (snd (fst x)) /\ tri_ok grid (snd x)) l ->
            tri_ok okL (flim l) -> tri_ok (fun x => regular x /\ 0 <= x) (flim l)).
  { intros l Hl Ho. eapply tri_impl; [|apply (tri_and grid okL); [apply flim_P|exact Ho]].
    - cbn. intros z [Hg [Hz1 Hz2]]. split; [apply regular_iff; split; [exact Hg|lia]|exact Hz1].
    - eapply Forall_impl; [|exact Hl]. cbn; tauto. }
  assert (TD : forall l, Forall (fun x => tri_ok grid (fst (fst x)) /\ tri_ok grid (snd (fst x)) /\ tri_ok grid (snd x)) l ->
            tri_ok okD (fdis l) -> tri_ok (fun x => regular x /\ x < 0) (fdis l)).
  { intros l Hl Ho. eapply tri_impl; [|apply (tri_and grid okD); [apply fdis_P|exact Ho]].
    - cbn. intros z [Hg [Hz1 Hz2]]. split; [apply regular_iff; split; [exact Hg|lia]|exact Hz1].
    - eapply Forall_impl; [|exact Hl]. cbn; tauto. }
  assert (TS : forall l, Forall (fun x => tri_ok grid (fst (fst x)) /\ tri_ok grid (snd (fst x)) /\ tri_ok grid (snd x)) l ->
            tri_ok okS (setpoint_of l) -> tri_ok regular (setpoint_of l)).
  { intros l Hl Ho. eapply tri_impl; [|apply (tri_and grid okS); [apply setpoint_P|exact Ho]].
    - cbn. intros z [Hg Hz]. apply regular_iff; split; [exact Hg|exact Hz].
    - exact Hl. }
  split; [apply TL; assumption|]. split; [apply TL; assumption|]. split; [apply TD; assumption|].
  split; [apply TD; assumption|]. split; apply TS; assumption.
Qed.

Lemma some_of_eq (P : Z -> Prop) none o :
  (forall o, opt_ok P o -> is_equal (value_or o none) none = is_none o) -> tri_ok P o ->
  negb (is_equal (l2 (plim_of o none)) none) || negb (is_equal (l3 (plim_of o none)) none) = phased3 o.
Proof.
  intros H (H1 & H2 & H3). unfold plim_of. cbn [l2 l3]. rewrite (H _ H2), (H _ H3). unfold phased3.
  destruct (t2 o), (t3 o); reflexivity.
Qed.

Lemma uses_three_rep x w : rep x w -> uses_three_phase_values x = phased w.
Proof.
  intros (E1 & E2 & E3 & E4 & E5 & E6 & _ & T). apply tidy_ok in T as (H1 & H2 & H3 & H4 & H5 & H6).
  unfold uses_three_phase_values, phased. cbn zeta. rewrite E1, E2, E3, E4, E5, E6.
  rewrite !(some_of_eq okL NO_LIMIT _ no_lim), !(some_of_eq okD NO_DISCHARGE _ no_dis),
    !(some_of_eq okS NO_SETPOINT _ no_set) by assumption. reflexivity.
Qed.

Lemma three_of_rep v xs ws : Forall2 rep xs ws -> three_of v xs = per_phase v ws.
Proof.
  intros H. unfold three_of, per_phase. destruct v; cbn [is_v21 andb].
  - clear H. induction xs as [|x xs IH]; [reflexivity|exact IH].
  - induction H as [|x w xs ws Hx _ IH]; [reflexivity|]. cbn [existsb]. rewrite IH, (uses_three_rep _ _ Hx). reflexivity.
Qed.

Lemma rep_tidy x w : rep x w -> tidy w.
Proof. unfold rep. tauto. Qed.

Lemma Forall2_weaken {A B} (P Q : A -> B -> Prop) l m :
  (forall a b, P a b -> Q a b) -> Forall2 P l m -> Forall2 Q l m.
Proof. intros H F. induction F; constructor; auto. Qed.

Lemma comb_lowest_all ar v xs ws :
  Forall2 rep xs ws ->
  (per_phase v ws = true -> Forall tidy (map (equalised ar (strictest_phases ws)) ws)) ->
  rep (comb_lowest ar v xs) (strictest ar (per_phase v ws) ws).
Proof.
  intros H He. rewrite <- (three_of_rep v xs ws H) in *. apply comb_lowest_rep; [| | |exact He].
  - eapply Forall2_weaken; [|exact H]. exact rep_wrep.
  - eapply Forall2_weaken; [|exact H]. intros x w (E1 & E2 & E3 & E4 & _). left. split; assumption.
  - clear He. induction H; constructor; [eapply rep_tidy; eassumption|assumption].
Qed.

(** ** merge_profiles_by_summing_limits *)

Definition sum_phases (ws : list want) : option Z := fold_left (fun a w => omax a (w_phases w)) ws None.

Lemma fold_sum ar b cd wd xs : forall x0,
  let x := fold_left (sum_step ar b cd wd) xs x0 in
  ip_cur x = fold_left (fun a p => sum_plim ar b cd a (ip_cur p)) xs (ip_cur x0) /\
  ip_pow x = fold_left (fun a p => sum_plim ar b wd a (ip_pow p)) xs (ip_pow x0) /\
  ip_dcur x = ip_dcur x0 /\ ip_dpow x = ip_dpow x0 /\ ip_scur x = ip_scur x0 /\ ip_spow x = ip_spow x0 /\
  ip_phases x = ip_phases x0.
Proof.
  induction xs as [|y xs IH]; intros x0; cbn zeta; cbn [fold_left]; [repeat split|].
  destruct (IH (sum_step ar b cd wd x0 y)) as (E1 & E2 & E3 & E4 & E5 & E6 & E7). cbn zeta in *.
  rewrite E1, E2, E3, E4, E5, E6, E7. repeat split.
Qed.

Lemma fold_total ar b d xs ws (f : iperiod -> plim) (g : want -> otri) :
  xs <> [] -> Forall2 (fun x w => f x = plim_of (g w) NO_LIMIT /\ tri_ok okL (g w)) xs ws ->
  fold_left (fun a p => sum_plim ar b d a (f p)) xs (plim_all 0) =
  plim_of (total ar b d (map g ws)) NO_LIMIT.
Proof.
  intros Hne H. facts.
  assert (V : forall o, opt_ok okL o -> (if 0 <=? value_or o NO_LIMIT then value_or o NO_LIMIT else d) = or_else o d).
  { intros [x|] Hx; cbn [value_or or_else].
    - destruct Hx. destruct (Z.leb_spec 0 x); [reflexivity|lia].
    - destruct (Z.leb_spec 0 NO_LIMIT); [lia|reflexivity]. }
  assert (G : forall a1 a2 a3, 
    fold_left (fun a p => sum_plim ar b d a (f p)) xs {| l1 := a1; l2 := a2; l3 := a3 |} =
    {| l1 := fold_left (fun s x => f_add ar s (or_else (t1 x) d)) (map g ws) a1;
       l2 := if b then fold_left (fun s x => f_add ar s (or_else (t2 x) d)) (map g ws) a2
             else match xs with [] => a2 | _ => NO_LIMIT end;
       l3 := if b then fold_left (fun s x => f_add ar s (or_else (t3 x) d)) (map g ws) a3
             else match xs with [] => a3 | _ => NO_LIMIT end |}).
  { clear Hne. induction H as [|x w xs ws (E & (O1 & O2 & O3)) _ IH]; intros a1 a2 a3; [destruct b; reflexivity|].
    cbn [fold_left map]. unfold sum_plim at 2. rewrite E. cbn [l1 l2 l3 plim_of]. rewrite !V by assumption.
    rewrite IH. destruct b; [reflexivity|]. destruct xs; reflexivity. }
  unfold plim_all. rewrite G. unfold total, plim_of. cbn [t1 t2 t3 value_or].
  destruct xs as [|x0 xs0]; [congruence|]. destruct b; reflexivity.
Qed.

Lemma comb_sum_rep ar v cd wd xs ws :
  xs <> [] -> Forall2 rep xs ws ->
  (per_phase v ws = true -> Forall tidy (map (equalised ar (sum_phases ws)) ws)) ->
  tidy (added ar (per_phase v ws) cd wd ws) ->
  let x := comb_sum ar v cd wd xs in
  let w := added ar (per_phase v ws) cd wd ws in
  wrep x w /\ paired x w /\ good x /\ uses_three_phase_values x = true.
Proof.
  intros Hne H He Ht. cbn zeta. unfold comb_sum, added in *. fold (three_of v xs).
  rewrite (three_of_rep v xs ws H).
  assert (En : fold_left (fun acc p => highest_phases acc (ip_phases p)) xs None = sum_phases ws).
  { unfold sum_phases. clear -H. generalize (@None Z). induction H as [|x w xs ws Hx _ IH]; intros a; [reflexivity|].
    cbn [fold_left]. rewrite highest_phases_eq. destruct Hx as (_ & _ & _ & _ & _ & _ & -> & _). apply IH. }
  rewrite En. fold (sum_phases ws) in *. set (n := sum_phases ws) in *. set (b := per_phase v ws) in *.
  set (ws' := if b then map (equalised ar n) ws else ws) in *.
  assert (Hs : Forall2 srep (map (spread_period ar b n v) xs) ws').
  { assert (Hb : b = true -> v = V21).
    { unfold b, per_phase. destruct v; [discriminate|reflexivity]. }
    assert (Hp : Forall2 paired xs ws).
    { eapply Forall2_weaken; [|exact H]. intros x w (E1 & E2 & E3 & E4 & _). left. split; assumption. }
    assert (Hw : Forall2 wrep xs ws) by (eapply Forall2_weaken; [|exact H]; exact rep_wrep).
    unfold ws' in *. clearbody n b. clear En ws' Ht Hne H. destruct b.
    - specialize (He eq_refl). rewrite (Hb eq_refl). clear Hb.
      induction Hw as [|x w xs ws Hx Hw IH]; [constructor|]. inversion Hp; subst. cbn [map] in *. inversion He; subst.
      constructor; [|apply IH; assumption].
      apply (spread_rep ar n true x w); [exact Hx|assumption|intros _; apply tidy_ok; assumption].
    - clear He Hb. induction Hw as [|x w xs ws Hx Hw IH]; [constructor|]. inversion Hp; subst. cbn [map].
      constructor; [|apply IH; assumption].
      apply (spread_rep ar n false x w); [exact Hx|assumption|discriminate]. }
  assert (Hne' : map (spread_period ar b n v) xs <> []) by (destruct xs; [congruence|discriminate]).
  clearbody ws'. set (ys := map (spread_period ar b n v) xs) in *. clearbody ys. clear Hne En He H.
  match goal with |- context [fold_left (sum_step ar b cd wd) ys ?x] => set (x0 := x) end.
  destruct (fold_sum ar b cd wd ys x0) as (F1 & F2 & F3 & F4 & F5 & F6 & F7). cbn zeta in *.
  set (x := fold_left (sum_step ar b cd wd) ys x0) in *. clearbody x.
  change (ip_cur x0) with (plim_all 0) in F1. change (ip_pow x0) with (plim_all 0) in F2.
  rewrite (fold_total ar b cd ys ws' ip_cur w_cur Hne') in F1.
  2:{ eapply Forall2_weaken; [|exact Hs]. intros p w (E1 & _ & _ & _ & _ & _ & (K1 & _)). split; assumption. }
  rewrite (fold_total ar b wd ys ws' ip_pow w_pow Hne') in F2.
  2:{ eapply Forall2_weaken; [|exact Hs]. intros p w (_ & E2 & _ & _ & _ & _ & (_ & K2 & _)). split; assumption. }
  cbn [x0 ip_dcur ip_dpow ip_scur ip_spow ip_phases] in F3, F4, F5, F6, F7.
  facts.
  split; [|split; [|split]].
  - unfold wrep. cbn [w_cur w_pow w_dcur w_dpow w_scur w_spow w_phases].
    split; [exact F1|]. split; [exact F2|]. split; [right; split; [reflexivity|exact F3]|].
    split; [right; split; [reflexivity|exact F4]|]. split; [exact F5|]. split; [exact F6|]. split; [exact F7|].
    apply tidy_ok. exact Ht.
  - right. cbn [w_dcur w_dpow]. repeat split; assumption.
  - apply tidy_grid in Ht as (T1 & T2 & _). cbn [w_cur w_pow] in *.
    unfold good. rewrite F1, F2, F3, F4, F5, F6.
    split; [apply (plim_grid grid); [auto|exact grid_no_limit|exact T1]|].
    split; [apply (plim_grid grid); [auto|exact grid_no_limit|exact T2]|].
    assert (Z0 : grid3 (plim_all 0)) by (repeat split; exact grid_0).
    assert (S0 : grid3 (plim_all NO_SETPOINT)) by (rewrite no_sp_eq; repeat split; exact grid_flt).
    repeat (split; [assumption|]). assumption.
  - unfold uses_three_phase_values. cbn zeta. rewrite F3. cbn [plim_all l2 l3].
    rewrite (ieq_far 0 NO_DISCHARGE) by lia. cbn [negb orb]. rewrite !orb_true_r. reflexivity.
Qed.

(** ** converting *)

Lemma transform_ok (P : Z -> Prop) none ar (um ud : bool) t o start :
  (forall o, opt_ok P o -> is_equal (value_or o none) none = is_none o) -> opt_ok P o ->
  transform_value ar (value_or o none) none t start um ud =
  (if um then omin else omax) start (option_map (fun v => if ud then f_div ar v t else f_mul ar v t) o).
Proof.
  intros H Ho. unfold transform_value. rewrite (H o Ho). destruct o as [x|]; cbn [is_none option_map value_or].
  - destruct start as [y|], um; reflexivity.
  - destruct um, start; reflexivity.
Qed.

Lemma both_ok (P : Z -> Prop) none ar u volts n (um : bool) a b :
  (forall o, opt_ok P o -> is_equal (value_or o none) none = is_none o) -> tri_ok P a -> tri_ok P b ->
  transform_limit ar (plim_of b none) none volts n (store_limit (plim_of a none) none none3) um (unit_eqb u UA) =
  three (if um then omin else omax) a (converted ar u volts n b).
Proof.
  intros H (A1 & A2 & A3) (B1 & B2 & B3). unfold transform_limit, store_limit, plim_of.
  cbn [l1 l2 l3 t1 t2 t3 none3].
  rewrite !(H _ A1), !(H _ A2), !(H _ A3), !(H _ B2), !(H _ B3).
  rewrite !(transform_ok P) by assumption.
  assert (St : forall o, (if is_none o then None else Some (value_or o none)) = o) by (intros [x|]; reflexivity).
  rewrite !St. unfold three, converted, map3. cbn [t1 t2 t3].
  replace (if is_none (t2 b) || is_none (t3 b) then f_mul ar volts (f_of_int ar n) else volts)
    with (match t2 b with Some _ => match t3 b with Some _ => volts | None => f_mul ar volts (f_of_int ar n) end
                     | None => f_mul ar volts (f_of_int ar n) end) by (destruct (t2 b), (t3 b); reflexivity).
  destruct u; reflexivity.
Qed.

Lemma convert_rep ar u dl dp v x w :
  rep x w ->
  let o := convert_period ar u dl dp v x in
  let e := expressed ar u dl dp v w in
  op_limit o = op_limit e /\ op_dis o = op_dis e /\ op_set o = op_set e /\ op_phases o = op_phases e.
Proof.
  intros (E1 & E2 & E3 & E4 & E5 & E6 & E7 & T). apply tidy_ok in T as (H1 & H2 & H3 & H4 & H5 & H6).
  cbn zeta. unfold convert_period. fold none3. cbn zeta.
  rewrite E1, E2, E3, E4, E5, E6, E7. clear E1 E2 E3 E4 E5 E6 E7.
  unfold expressed. cbn [op_limit op_dis op_set op_phases]. change (@value_or Z) with or_else.
  rewrite FLT_MAX_eq.
  assert (D : forall a b, tri_ok okD a -> tri_ok okD b -> forall n,
    transform_limit ar (plim_of b NO_DISCHARGE) NO_DISCHARGE v n
      (store_limit (plim_of a NO_DISCHARGE) NO_DISCHARGE none3) false (unit_eqb u UA) =
    three omax a (converted ar u v n b)).
  { intros. apply (both_ok okD NO_DISCHARGE ar u v n false); [exact no_dis|assumption..]. }
  assert (Sp : forall a b, tri_ok okS a -> tri_ok okS b -> forall n,
    transform_limit ar (plim_of b NO_SETPOINT) NO_SETPOINT v n
      (store_limit (plim_of a NO_SETPOINT) NO_SETPOINT none3) true (unit_eqb u UA) =
    three omin a (converted ar u v n b)).
  { intros. apply (both_ok okS NO_SETPOINT ar u v n true); [exact no_set|assumption..]. }
  assert (L : forall a b n, tri_ok okL a -> tri_ok okL b ->
    transform_limit ar (plim_of b NO_LIMIT) NO_LIMIT v n
      (store_limit (plim_of a NO_LIMIT) NO_LIMIT
         {| t1 := Some (if is_none (t1 a) && is_none (t1 b) then dl else FLT_MAX); t2 := None; t3 := None |})
      true (unit_eqb u UA) =
    let r := three omin a (converted ar u v n b) in
    {| t1 := match t1 a, t1 b with
             | None, None => Some dl
             | None, Some _ => omin (Some FLT_MAX) (t1 (converted ar u v n b))
             | Some _, _ => t1 r
             end; t2 := t2 r; t3 := t3 r |}).
  { intros a b n Ha Hb. cbn zeta. rewrite <- (both_ok okL NO_LIMIT ar u v n true a b no_lim Ha Hb).
    unfold transform_limit, store_limit, plim_of. cbn [l1 l2 l3 t1 t2 t3 none3]. 
    destruct Ha as (A1 & A2 & A3), Hb as (B1 & B2 & B3).
    set (t := if is_equal (value_or (t2 b) NO_LIMIT) NO_LIMIT || is_equal (value_or (t3 b) NO_LIMIT) NO_LIMIT
              then f_mul ar v (f_of_int ar n) else v).
    f_equal. rewrite !(no_lim _ A1). rewrite !(transform_ok okL NO_LIMIT _ _ _ _ _ _ no_lim B1).
    assert (Ec : t1 (converted ar u v n b) = option_map (fun x => if unit_eqb u UA then f_div ar x t else f_mul ar x t) (t1 b)).
    { unfold converted, map3, t. cbn [t1]. rewrite (no_lim _ B2), (no_lim _ B3).
      destruct u, (t1 b), (t2 b), (t3 b); reflexivity. }
    rewrite Ec. destruct (t1 a), (t1 b); reflexivity. }
  assert (N1 : is_equal (l1 (plim_of (w_cur w) NO_LIMIT)) NO_LIMIT = is_none (t1 (w_cur w))) by (apply no_lim; apply H1).
  assert (N2 : is_equal (l1 (plim_of (w_pow w) NO_LIMIT)) NO_LIMIT = is_none (t1 (w_pow w))) by (apply no_lim; apply H2).
  rewrite N1, N2. clear N1 N2.
  destruct u.
  - rewrite (L (w_cur w) (w_pow w)), D, Sp by assumption. cbn zeta. split; [|repeat split].
    cbn [three t1 t2 t3]. f_equal. destruct (t1 (w_cur w)) as [c|] eqn:Ec, (t1 (w_pow w)) as [p|] eqn:Ep;
      unfold converted, map3; cbn [t1]; rewrite Ep; cbn [option_map omin]; reflexivity.
  - rewrite (andb_comm (is_none (t1 (w_cur w)))).
    rewrite (L (w_pow w) (w_cur w)), D, Sp by assumption. cbn zeta. split; [|repeat split].
    cbn [three t1 t2 t3]. f_equal. destruct (t1 (w_cur w)) as [c|] eqn:Ec, (t1 (w_pow w)) as [p|] eqn:Ep;
      unfold converted, map3; cbn [t1]; rewrite Ec; cbn [option_map omin]; reflexivity.
Qed.
