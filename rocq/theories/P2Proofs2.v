(** Proofs about the OCPP 2.x composite schedule, part 2: choosing, combining and converting
    periods. *)

From Coq Require Import ZArith List Bool Permutation Sorted Lia.
From Coq Require Import ZifyBool.
From Verif Require Import P2Model P2Spec P2Proofs.
Import ListNotations.
Open Scope Z_scope.

(** ** look and ascending lists *)

Lemma look_cons {A} (st : A -> Z) x l o :
  st x <= o ->
  look st (x :: l) o = Some (match look st l o with Some y => y | None => x end).
Proof.
  intros H; cbn [look]. destruct (Z.leb_spec (st x) o); [|lia].
  destruct (look st l o); reflexivity.
Qed.

Lemma look_in {A} (st : A -> Z) l o y : look st l o = Some y -> In y l /\ st y <= o.
Proof.
  induction l as [|x l IH]; cbn [look]; [discriminate|].
  destruct (Z.leb_spec (st x) o); [|discriminate].
  destruct (look st l o) as [z|].
  - intros E; injection E as <-. destruct (IH eq_refl). split; [right|]; assumption.
  - intros E; injection E as <-. split; [left; reflexivity|assumption].
Qed.

Lemma asc_cons {A} (st : A -> Z) x l :
  ascending st l -> Forall (fun y => st x < st y) l -> ascending st (x :: l).
Proof. intros; constructor; assumption. Qed.

Lemma look_self {A} (st : A -> Z) l x : ascending st l -> In x l -> look st l (st x) = Some x.
Proof.
  induction l as [|a l IH]; intros Ha Hx; [destruct Hx|]. destruct (asc_inv _ _ _ Ha) as [Hl Hgt].
  cbn [look]. destruct Hx as [->|Hx].
  - rewrite Z.leb_refl. rewrite look_none_above; [reflexivity|exact Hgt].
  - rewrite Forall_forall in Hgt. specialize (Hgt x Hx). destruct (Z.leb_spec (st a) (st x)); [|lia].
    rewrite (IH Hl Hx). reflexivity.
Qed.

(** ** choose *)

Section Choose.
  Variable current : Z.

  Lemma choose_spec ps : forall earliest next chosen,
    current < earliest ->
    (exists pre x post n,
        ps = pre ++ x :: post /\ covers x current /\ (forall y, In y pre -> ~ covers y current) /\
        choose current ps earliest next chosen = (e_start x, n, Some x) /\
        current < n <= earliest /\
        (forall y, In y pre -> current < e_end y -> n <= e_start y) /\
        (n = earliest \/ exists y, In y pre /\ n = e_start y)) \/
    (exists e n c,
        (forall y, In y ps -> ~ covers y current) /\
        choose current ps earliest next chosen = (e, n, c) /\
        current < e <= earliest /\
        (forall y, In y ps -> current < e_end y -> e <= e_start y) /\
        (e = earliest \/ exists y, In y ps /\ e = e_start y)).
  Proof.
    induction ps as [|s ps IH]; intros earliest next chosen Hc.
    - right. exists earliest, next, chosen. cbn [choose].
      split; [intros y []|]. split; [reflexivity|]. split; [lia|]. split; [intros y []|left; reflexivity].
    - cbn [choose].
      destruct ((e_start s <=? earliest) && (current <? e_end s)) eqn:E1.
      + apply andb_prop in E1 as [E1 E2].
        destruct (e_start s <=? current) eqn:E3.
        * left. exists [], s, ps, earliest. split; [reflexivity|].
          split; [unfold covers; lia|]. split; [intros y []|]. split; [reflexivity|].
          split; [lia|]. split; [intros y []|left; reflexivity].
        * destruct (IH (e_start s) earliest (Some s)) as
            [(pre & x & post & n & -> & H1 & H2 & H3 & H4 & H5 & H6)|
             (e & n & c & H1 & H2 & H3 & H4 & H5)]; [lia| |].
          -- left. exists (s :: pre), x, post, n. split; [reflexivity|]. split; [exact H1|].
             split; [intros y [<-|Hy]; [unfold covers; lia|apply H2; exact Hy]|].
             split; [exact H3|]. split; [lia|].
             split; [intros y [<-|Hy] Ha; [lia|apply H5; assumption]|].
             right. destruct H6 as [->|(y & Hy & ->)]; [exists s|exists y]; split; try reflexivity;
               [left; reflexivity|right; exact Hy].
          -- right. exists e, n, c. split; [intros y [<-|Hy]; [unfold covers; lia|apply H1; exact Hy]|].
             split; [exact H2|]. split; [lia|].
             split; [intros y [<-|Hy] Ha; [lia|apply H4; assumption]|].
             right. destruct H5 as [->|(y & Hy & ->)]; [exists s|exists y]; split; try reflexivity;
               [left; reflexivity|right; exact Hy].
      + destruct (IH earliest next chosen Hc) as
          [(pre & x & post & n & -> & H1 & H2 & H3 & H4 & H5 & H6)|
           (e & n & c & H1 & H2 & H3 & H4 & H5)].
        -- left. exists (s :: pre), x, post, n. split; [reflexivity|]. split; [exact H1|].
           split; [intros y [<-|Hy]; [unfold covers; lia|apply H2; exact Hy]|].
           split; [exact H3|]. split; [lia|].
           split; [intros y [<-|Hy] Ha; [lia|apply H5; assumption]|].
           destruct H6 as [->|(y & Hy & ->)]; [left; reflexivity|right; exists y; split; [right; exact Hy|reflexivity]].
        -- right. exists e, n, c. split; [intros y [<-|Hy]; [unfold covers; lia|apply H1; exact Hy]|].
           split; [exact H2|]. split; [lia|].
           split; [intros y [<-|Hy] Ha; [lia|apply H4; assumption]|].
           destruct H5 as [->|(y & Hy & ->)]; [left; reflexivity|right; exists y; split; [right; exact Hy|reflexivity]].
  Qed.
End Choose.

(** ** generate *)

Definition ipay (x : iperiod) := (ip_cur x, ip_pow x, ip_dcur x, ip_dpow x, ip_scur x, ip_spow x, ip_phases x).

(* what a list of entries in priority order says at time t *)
Definition says (ps : list entry) (t : Z) (x : iperiod) : Prop :=
  ((forall e, In e ps -> ~ covers e t) /\ ipay x = ipay (no_limit_period 0)) \/
  (exists pre e post, ps = pre ++ e :: post /\ covers e t /\ (forall y, In y pre -> ~ covers y t) /\
                      ipay x = ipay (period_of_entry 0 e)).

Definition breaks (ps : list entry) (end_ : Z) : list Z :=
  end_ :: map e_start ps ++ map e_end ps.

Definition left_over (ps : list entry) (end_ current : Z) : nat :=
  length (filter (fun b => current <? b) (breaks ps end_)).

Lemma filter_lt_strict l c c' :
  c < c' -> In c' l ->
  (length (filter (fun b => (c' <? b)%Z) l) < length (filter (fun b => (c <? b)%Z) l))%nat.
Proof.
  intros Hc. induction l as [|b l IH]; intros Hin; [destruct Hin|].
  assert (Hle : (length (filter (fun b => (c' <? b)%Z) l) <= length (filter (fun b => (c <? b)%Z) l))%nat).
  { clear IH Hin. induction l as [|a l IH]; [cbn; lia|]. cbn [filter].
    destruct (Z.ltb_spec c' a), (Z.ltb_spec c a); cbn [length]; lia. }
  cbn [filter]. destruct Hin as [->|Hin].
  - destruct (Z.ltb_spec c' c'), (Z.ltb_spec c c'); cbn [length]; lia.
  - specialize (IH Hin). destruct (Z.ltb_spec c' b), (Z.ltb_spec c b); cbn [length]; lia.
Qed.

Section Generate.
  Variable ps : list entry.
  Variables now end_ : Z.
  Hypothesis window : end_ - now <= INT_MAX.

  Lemma elapsed_id c : now <= c <= end_ -> elapsed_seconds c now = c - now.
  Proof. intros H. unfold elapsed_seconds. apply clamp_int_id. unfold INT_MAX in *. lia. Qed.

  Definition gen_ok (current : Z) (l : list iperiod) : Prop :=
    ascending ip_start l /\
    Forall (fun x => current - now <= ip_start x < end_ - now) l /\
    (current < end_ -> exists x r, l = x :: r /\ ip_start x = current - now) /\
    (forall t, current <= t < end_ ->
       exists x, look ip_start l (t - now) = Some x /\ says ps t x).

  Lemma gen_ok_nil current : end_ <= current -> gen_ok current [].
  Proof.
    intros H. split; [constructor|]. split; [constructor|]. split; [lia|]. intros t Ht; lia.
  Qed.

  Lemma gen_ok_cons current next x l :
    current < end_ -> current < next <= end_ -> gen_ok next l -> ip_start x = current - now ->
    (forall t, current <= t < next -> says ps t x) ->
    gen_ok current (x :: l).
  Proof.
    intros Hc Hn (G1 & G2 & G3 & G4) Hx Hs.
    split; [|split; [|split]].
    - apply asc_cons; [exact G1|]. eapply Forall_impl; [|exact G2]. cbn. intros; lia.
    - constructor; [lia|]. eapply Forall_impl; [|exact G2]. cbn. intros; lia.
    - intros _. exists x, l. split; [reflexivity|exact Hx].
    - intros t Ht. rewrite look_cons by lia.
      destruct (Z.lt_ge_cases t next) as [Hlt|Hge].
      + rewrite look_none_above; [|eapply Forall_impl; [|exact G2]; cbn; intros; lia].
        exists x. split; [reflexivity|]. apply Hs; lia.
      + destruct (G4 t) as (y & Hy & Hsay); [lia|]. rewrite Hy. exists y. split; [reflexivity|exact Hsay].
  Qed.

  Lemma generate_loop_ok fuel : forall current,
    now <= current <= end_ -> (left_over ps end_ current <= fuel)%nat ->
    gen_ok current (generate_loop fuel ps now end_ current).
  Proof.
    induction fuel as [|f IH]; intros current Hc Hf.
    - cbn [generate_loop]. apply gen_ok_nil.
      unfold left_over, breaks in Hf. cbn [filter] in Hf.
      destruct (Z.ltb_spec current end_); [cbn [length] in Hf; lia|lia].
    - cbn [generate_loop]. destruct (Z.ltb_spec current end_) as [Hlt|Hge]; [|apply gen_ok_nil; lia].
      destruct (choose_spec current ps end_ end_ None Hlt) as
        [(pre & x & post & n & Eps & H1 & H2 & H3 & H4 & H5 & H6)|
         (e & n & c & H1 & H2 & H3 & H4 & H5)].
      + rewrite H3.
        assert (Hstart : e_start x <= current) by (unfold covers in H1; lia).
        destruct (Z.ltb_spec current (e_start x)); [lia|].
        set (nx := if e_end x <? n then e_end x else n).
        assert (Hnx : current < nx <= end_).
        { unfold nx, covers in *. destruct (Z.ltb_spec (e_end x) n); lia. }
        apply gen_ok_cons with (next := nx).
        * lia.
        * exact Hnx.
        * apply IH; [lia|].
          enough (left_over ps end_ nx < left_over ps end_ current)%nat by lia.
          apply filter_lt_strict; [lia|].
          unfold breaks, nx. destruct (Z.ltb_spec (e_end x) n).
          -- right. apply in_or_app. right. apply in_map. rewrite Eps. apply in_elt.
          -- destruct H6 as [->|(y & Hy & ->)]; [left; reflexivity|].
             right. apply in_or_app. left. apply in_map. rewrite Eps. apply in_or_app. left; exact Hy.
        * rewrite elapsed_id by lia. unfold period_of_entry. destruct (e_unit x); reflexivity.
        * intros t Ht. right. exists pre, x, post. split; [exact Eps|]. split.
          { unfold covers, nx in *. destruct (Z.ltb_spec (e_end x) n); lia. }
          split; [|unfold ipay, period_of_entry; destruct (e_unit x); reflexivity].
          intros y Hy Hcov. specialize (H2 y Hy). specialize (H5 y Hy).
          unfold covers, nx in *. destruct (Z.ltb_spec (e_end x) n); lia.
      + rewrite H2. destruct (Z.ltb_spec current e); [|lia].
        apply gen_ok_cons with (next := e).
        * lia.
        * lia.
        * apply IH; [lia|].
          enough (left_over ps end_ e < left_over ps end_ current)%nat by lia.
          apply filter_lt_strict; [lia|].
          unfold breaks. destruct H5 as [->|(y & Hy & ->)]; [left; reflexivity|].
          right. apply in_or_app. left. apply in_map. exact Hy.
        * rewrite elapsed_id by lia. reflexivity.
        * intros t Ht. left. split; [|reflexivity].
          intros y Hy Hcov. specialize (H1 y Hy). specialize (H4 y Hy). unfold covers in *. lia.
  Qed.
End Generate.

Lemma left_over_bound ps end_ current : (left_over ps end_ current <= 2 * length ps + 1)%nat.
Proof.
  unfold left_over. etransitivity.
  - assert (F : forall l : list Z, (length (filter (fun b => (current <? b)%Z) l) <= length l)%nat).
    { intros l. induction l as [|a l IHl]; [cbn; lia|]. cbn [filter].
      destruct (Z.ltb current a); cbn [length]; lia. }
    apply F.
  - unfold breaks. cbn [length]. rewrite app_length, !map_length. lia.
Qed.

(** ** combine *)

Definition cur_of (o : Z) (it : iter) : iperiod :=
  match look ip_start (snd it) o with Some y => y | None => fst it end.

Definition iter_ok (current : Z) (it : iter) : Prop :=
  ascending ip_start (snd it) /\
  Forall (fun y => current < ip_start y < INT_MAX) (snd it).

Lemma next_lowest_spec its current :
  Forall (iter_ok current) its ->
  let nl := next_lowest its current in
  (nl = INT_MAX \/ (current < nl < INT_MAX /\ exists it y r, In it its /\ snd it = y :: r /\ ip_start y = nl)) /\
  Forall (fun it => match snd it with [] => True | y :: _ => nl <= ip_start y end) its.
Proof.
  intros H. unfold next_lowest.
  assert (G : forall its acc, Forall (iter_ok current) its ->
    let nl := fold_left (fun acc it =>
               match snd it with
               | n :: _ => if (current <? ip_start n) && (ip_start n <? acc)
                           then ip_start n else acc
               | [] => acc
               end) its acc in
    nl <= acc /\
    (nl = acc \/ (current < nl < INT_MAX /\ exists it y r, In it its /\ snd it = y :: r /\ ip_start y = nl)) /\
    Forall (fun it : iter => match snd it with [] => True | y :: _ => nl <= ip_start y end) its).
  { clear its H. induction its as [|it its IH]; intros acc H; cbn zeta; cbn [fold_left].
    - split; [lia|]. split; [left; reflexivity|constructor].
    - inversion H as [|? ? Hit Hits]; subst.
      set (acc' := match snd it with
                   | n :: _ => if (current <? ip_start n) && (ip_start n <? acc) then ip_start n else acc
                   | [] => acc
                   end).
      destruct (IH acc' Hits) as (I1 & I2 & I3). cbn zeta in I1, I2, I3.
      destruct Hit as [_ Hit].
      assert (Ha : acc' <= acc /\ (acc' = acc \/ exists y r, snd it = y :: r /\ ip_start y = acc' /\ current < acc' < INT_MAX) /\
                   match snd it with [] => True | y :: _ => acc' <= ip_start y end).
      { unfold acc'. destruct (snd it) as [|y r]; [split; [lia|split; [left; reflexivity|exact I]]|].
        inversion Hit; subst.
        destruct (Z.ltb_spec current (ip_start y)); [|lia]. cbn [andb].
        destruct (Z.ltb_spec (ip_start y) acc).
        - split; [lia|]. split; [right; exists y, r; repeat split; lia|lia].
        - split; [lia|]. split; [left; reflexivity|lia]. }
      destruct Ha as (A1 & A2 & A3).
      split; [lia|]. split.
      + destruct I2 as [I2|(I2 & it' & y & r & J1 & J2 & J3)].
        * destruct A2 as [A2|(y & r & A2 & A4 & A5)]; [left; lia|].
          right. split; [lia|]. exists it, y, r. split; [left; reflexivity|]. split; [exact A2|lia].
        * right. split; [exact I2|]. exists it', y, r. split; [right; exact J1|]. split; assumption.
      + constructor; [|exact I3]. destruct (snd it); [exact I|lia]. }
  destruct (G its INT_MAX H) as (_ & G2 & G3). split; assumption.
Qed.

Lemma advance_ok current nl it :
  current < nl -> iter_ok current it ->
  match snd it with [] => True | y :: _ => nl <= ip_start y end ->
  iter_ok nl (advance nl it) /\
  (forall o, nl <= o -> cur_of o (advance nl it) = cur_of o it) /\
  (length (snd (advance nl it)) <= length (snd it))%nat /\
  incl (snd (advance nl it)) (snd it).
Proof.
  intros Hc [Ha Hf] Hn. unfold advance. destruct it as [x r]. cbn [fst snd] in *.
  destruct r as [|y r].
  - split; [split; [constructor|constructor]|]. split; [reflexivity|]. split; [apply le_n|apply incl_refl].
  - inversion Hf; subst. destruct (asc_inv _ _ _ Ha) as [Ha' Hy].
    destruct (Z.eqb_spec (ip_start y) nl) as [<-|Hne].
    + split.
      { split; [exact Ha'|]. cbn [snd].
        rewrite Forall_forall in *. intros z Hz. split; [apply Hy; exact Hz|].
        specialize (H2 z Hz). lia. }
      split.
      { intros o Ho. unfold cur_of. cbn [fst snd]. rewrite look_cons by lia. reflexivity. }
      split; [cbn [snd length]; lia|]. cbn [snd]. apply incl_tl, incl_refl.
    + split.
      { split; [exact Ha|]. cbn [snd]. constructor; [lia|].
        rewrite Forall_forall in *. intros z Hz. specialize (H2 z Hz). specialize (Hy z Hz). lia. }
      split; [reflexivity|]. split; [apply le_n|apply incl_refl].
Qed.

(** Values that is_equal tells apart: multiples of 2^-52. *)
Definition grid (x : Z) : Prop := (2 ^ 97 | x).
Definition grid3 (x : plim) : Prop := grid (l1 x) /\ grid (l2 x) /\ grid (l3 x).
Definition good (x : iperiod) : Prop :=
  grid3 (ip_cur x) /\ grid3 (ip_pow x) /\ grid3 (ip_dcur x) /\ grid3 (ip_dpow x) /\
  grid3 (ip_scur x) /\ grid3 (ip_spow x).

Lemma is_equal_grid a b : grid a -> grid b -> is_equal a b = (a =? b).
Proof.
  intros [k Hk] [m Hm]. unfold is_equal. subst.
  assert (E : 2 ^ 97 - 2 ^ 43 = 158456325028528666390994878464) by (vm_compute; reflexivity).
  assert (E' : 2 ^ 97 = 158456325028528675187087900672) by (vm_compute; reflexivity).
  rewrite E, E'. destruct (Z.eqb_spec k m) as [->|N].
  - rewrite Z.eqb_refl. lia.
  - destruct (Z.eqb_spec (k * 158456325028528675187087900672) (m * 158456325028528675187087900672)); lia.
Qed.

Lemma is_equal_refl a : is_equal a a = true.
Proof. unfold is_equal. rewrite Z.sub_diag. vm_compute; reflexivity. Qed.

Lemma plim_eqb_grid a b : grid3 a -> grid3 b -> (plim_eqb a b = true <-> a = b).
Proof.
  destruct a as [a1 a2 a3], b as [b1 b2 b3]. intros (A1 & A2 & A3) (B1 & B2 & B3). cbn in *.
  unfold plim_eqb; cbn [l1 l2 l3]. rewrite !is_equal_grid by assumption.
  rewrite !andb_true_iff, !Z.eqb_eq. split; [intros ((-> & ->) & ->); reflexivity|].
  intros E; injection E as -> -> ->. auto.
Qed.

Lemma good_pay x y : ipay x = ipay y -> good x -> good y.
Proof. unfold ipay, good. intros E; injection E as -> -> -> -> -> -> _. tauto. Qed.

Lemma same_iperiod_iff a b : good a -> good b -> (same_iperiod a b = true <-> ipay a = ipay b).
Proof.
  intros (A1 & A2 & A3 & A4 & A5 & A6) (B1 & B2 & B3 & B4 & B5 & B6).
  unfold same_iperiod, ipay, oz_eqb. rewrite !andb_true_iff, !plim_eqb_grid by assumption. split.
  - intros ((((((-> & ->) & ->) & ->) & ->) & ->) & Hph).
    destruct (ip_phases a), (ip_phases b); try discriminate; [apply Z.eqb_eq in Hph as ->|]; reflexivity.
  - intros H; injection H as -> -> -> -> -> -> ->. destruct (ip_phases b) as [z|]; [rewrite (Z.eqb_refl z)|]; tauto.
Qed.

Definition remaining (its : list iter) : nat := list_sum (map (fun it => length (snd it)) its).

Lemma cur_of_before current it o nl :
  match snd it with [] => True | y :: _ => nl <= ip_start y end ->
  iter_ok current it -> o < nl -> cur_of o it = fst it.
Proof.
  intros Hn [Ha Hf] Ho. unfold cur_of.
  rewrite look_none_above; [reflexivity|].
  destruct (snd it) as [|y r]; [constructor|].
  destruct (asc_inv _ _ _ Ha) as [_ Hy]. constructor; [lia|].
  rewrite Forall_forall in *. intros z Hz. specialize (Hy z Hz). lia.
Qed.

Section Combine.
  Variable comb : list iperiod -> iperiod.
  Variable len : Z.

  Definition starts_from (its : list iter) (current : Z) (x : iperiod) : Prop :=
    ip_start x = current \/ exists it y, In it its /\ In y (snd it) /\ ip_start x = ip_start y.

  Lemma combine_loop_ok fuel : forall its current last,
    Forall (iter_ok current) its ->
    (remaining its < fuel)%nat ->
    current < len -> Forall (fun it => Forall (fun y => ip_start y < len) (snd it)) its ->
    (forall o, current <= o < len -> good (comb (map (cur_of o) its))) ->
    match last with Some x => good x | None => True end ->
    let l := combine_loop fuel comb its current last in
    ascending ip_start l /\
    Forall (fun x => current <= ip_start x) l /\
    Forall (starts_from its current) l /\
    (last = None -> exists x r, l = x :: r /\ ip_start x = current) /\
    (forall o, current <= o ->
       exists x, match look ip_start l o with Some y => Some y | None => last end = Some x /\
                 ipay x = ipay (comb (map (cur_of o) its))).
  Proof.
    induction fuel as [|f IH]; intros its current last Hok Hf Hcl Hst Hgood Hlg; [lia|].
    cbn zeta. cbn [combine_loop].
    set (period := set_ip_start (comb (map fst its)) current).
    set (skip := match last with Some l => same_iperiod period l | None => false end).
    set (last' := if skip then last else Some period).
    set (nl := next_lowest its current).
    destruct (next_lowest_spec its current Hok) as [Hnl Hmin]. fold nl in Hnl, Hmin.
    assert (Hhead : forall o, current <= o < nl ->
              ipay (comb (map (cur_of o) its)) = ipay period).
    { intros o Ho. unfold period. replace (map (cur_of o) its) with (map fst its); [reflexivity|].
      apply map_ext_in. intros it Hit. symmetry.
      rewrite Forall_forall in Hok, Hmin. eapply cur_of_before; [apply Hmin; exact Hit|apply Hok; exact Hit|lia]. }
    assert (Hgp : good period).
    { apply (good_pay (comb (map (cur_of current) its))); [|apply Hgood; lia].
      unfold period. replace (map (cur_of current) its) with (map fst its); [reflexivity|].
      apply map_ext_in. intros it Hit. symmetry. rewrite Forall_forall in Hok.
      unfold cur_of. destruct (Hok it Hit) as [_ Hf']. rewrite look_none_above; [reflexivity|].
      eapply Forall_impl; [|exact Hf']. cbn; intros; lia. }
    assert (Hlast' : exists x, last' = Some x /\ ipay x = ipay period).
    { unfold last', skip. destruct last as [x|].
      - destruct (same_iperiod period x) eqn:Es.
        + exists x. split; [reflexivity|]. symmetry. apply same_iperiod_iff; [exact Hgp|exact Hlg|exact Es].
        + exists period. split; reflexivity.
      - exists period. split; reflexivity. }
    set (tail := if nl =? INT_MAX then []
                 else combine_loop f comb (map (advance nl) its) nl last').
    assert (Htail : ascending ip_start tail /\ Forall (fun x => nl <= ip_start x) tail /\
              Forall (starts_from its nl) tail /\ (tail <> [] -> nl <> INT_MAX) /\
              (forall o, nl <= o -> nl <> INT_MAX ->
                 exists x, match look ip_start tail o with Some y => Some y | None => last' end = Some x /\
                 ipay x = ipay (comb (map (cur_of o) its)))).
    { unfold tail. destruct (Z.eqb_spec nl INT_MAX) as [He|Hne].
      { split; [constructor|]. split; [constructor|]. split; [constructor|]. split; [congruence|]. congruence. }
      destruct Hnl as [Hnl|(Hnl & it0 & y0 & r0 & Hin0 & Er0 & Ey0)]; [congruence|].
      assert (Hadv : forall it, In it its -> iter_ok nl (advance nl it) /\
                (forall o, nl <= o -> cur_of o (advance nl it) = cur_of o it) /\
                (length (snd (advance nl it)) <= length (snd it))%nat /\
                incl (snd (advance nl it)) (snd it)).
      { intros it Hit. rewrite Forall_forall in Hok, Hmin.
        apply (advance_ok current nl it); [lia|apply Hok; exact Hit|apply Hmin; exact Hit]. }
      assert (Hrem : (remaining (map (advance nl) its) < remaining its)%nat).
      { unfold remaining. rewrite map_map. clear -Hadv Hin0 Er0 Ey0. clearbody nl.
        assert (Hle : forall l, (forall it, In it l -> (length (snd (advance nl it)) <= length (snd it))%nat) ->
                  (list_sum (map (fun it => length (snd (advance nl it))) l) <=
                   list_sum (map (fun it => length (snd it)) l))%nat).
        { induction l as [|a l IHl]; intros Hl; [cbn; lia|]. cbn [map list_sum fold_right].
          pose proof (Hl a (or_introl eq_refl)). specialize (IHl (fun i Hi => Hl i (or_intror Hi))).
          unfold list_sum in IHl |- *. lia. }
        assert (Hlen : forall it, In it its -> (length (snd (advance nl it)) <= length (snd it))%nat)
          by (intros it Hit; apply Hadv; exact Hit).
        clear Hadv. induction its as [|a its IHi]; [destruct Hin0|].
        cbn [map list_sum fold_right]. destruct Hin0 as [->|Hin0].
        - assert (length (snd (advance nl it0)) < length (snd it0))%nat.
          { unfold advance. rewrite Er0, Ey0, Z.eqb_refl. cbn. lia. }
          specialize (Hle its (fun i Hi => Hlen i (or_intror Hi))). unfold list_sum in *. lia.
        - specialize (IHi Hin0 (fun i Hi => Hlen i (or_intror Hi))).
          pose proof (Hlen a (or_introl eq_refl)). unfold list_sum in *. lia. }
      destruct (IH (map (advance nl) its) nl last') as (I1 & I2 & I3 & _ & I5).
      { apply Forall_forall. intros it Hit. apply in_map_iff in Hit as (it' & <- & Hit').
        apply Hadv; exact Hit'. }
      { lia. }
      { rewrite Forall_forall in Hst. specialize (Hst it0 Hin0). rewrite Er0 in Hst.
        inversion Hst; subst; lia. }
      { apply Forall_forall. intros it Hit. apply in_map_iff in Hit as (it' & <- & Hit').
        rewrite Forall_forall in Hst. specialize (Hst it' Hit'). rewrite Forall_forall in *.
        intros y Hy. apply Hst. apply (proj2 (proj2 (proj2 (Hadv it' Hit')))). exact Hy. }
      { intros o Ho. rewrite map_map.
        replace (map (fun x => cur_of o (advance nl x)) its) with (map (cur_of o) its);
          [apply Hgood; lia|].
        apply map_ext_in. intros it Hit. symmetry. apply Hadv; [exact Hit|lia]. }
      { unfold last'. destruct skip; [exact Hlg|exact Hgp]. }
      split; [exact I1|]. split; [exact I2|]. split.
      { eapply Forall_impl; [|exact I3]. cbn. intros x [Hx|(it & y & Hit & Hy & Hx)]; [left; exact Hx|].
        right. apply in_map_iff in Hit as (it' & <- & Hit'). exists it', y. split; [exact Hit'|].
        split; [|exact Hx]. apply (proj2 (proj2 (proj2 (Hadv it' Hit')))). exact Hy. }
      split; [congruence|]. intros o Ho _. destruct (I5 o Ho) as (x & Hx & Hp).
      exists x. split; [exact Hx|]. rewrite Hp. f_equal. f_equal. rewrite map_map.
      apply map_ext_in. intros it Hit. apply Hadv; [exact Hit|exact Ho]. }
    destruct Htail as (T1 & T2 & T3 & T4 & T5).
    assert (Hcn : tail <> [] -> current < nl).
    { intros Hne. destruct Hnl as [->|[Hlt _]]; [|lia]. specialize (T4 Hne). congruence. }
    assert (Hcn' : Forall (fun x => current < ip_start x) tail).
    { destruct tail as [|a tl] eqn:Et; [constructor|].
      eapply Forall_impl; [|exact T2]. cbn. intros. specialize (Hcn ltac:(discriminate)). lia. }
    assert (Hsf : Forall (starts_from its current) tail).
    { rewrite Forall_forall in T3 |- *. intros x Hx. destruct (T3 x Hx) as [E|E]; [|right; exact E].
      right. destruct Hnl as [Hnl|(_ & it0 & y0 & r0 & Hin0 & Er0 & Ey0)].
      - exfalso. apply (T4 ltac:(intros E'; rewrite E' in Hx; destruct Hx)). exact Hnl.
      - exists it0, y0. split; [exact Hin0|]. split; [rewrite Er0; left; reflexivity|lia]. }
    assert (Hlook : forall o, current <= o ->
              exists x, match look ip_start tail o with Some y => Some y | None => last' end = Some x /\
                        ipay x = ipay (comb (map (cur_of o) its))).
    { intros o Ho. destruct Hnl as [Hnl|(Hnl & _)].
      - assert (tail = []) as -> by (destruct tail; [reflexivity|exfalso; apply T4; [discriminate|exact Hnl]]).
        cbn [look]. destruct Hlast' as (x & -> & Hx). exists x. split; [reflexivity|].
        rewrite Hx. symmetry. unfold period. cbn [ipay set_ip_start].
        replace (map (cur_of o) its) with (map fst its); [reflexivity|].
        apply map_ext_in. intros it Hit. symmetry. unfold cur_of.
        rewrite Forall_forall in Hok, Hmin. specialize (Hok it Hit) as [_ Hok]. specialize (Hmin it Hit).
        destruct (snd it) as [|y r]; [reflexivity|]. inversion Hok; subst. lia.
      - destruct (Z.lt_ge_cases o nl) as [Hlt|Hge].
        + rewrite look_none_above.
          * destruct Hlast' as (x & -> & Hx). exists x. split; [reflexivity|].
            rewrite Hx. symmetry. apply Hhead; lia.
          * eapply Forall_impl; [|exact T2]. cbn. intros; lia.
        + apply T5; lia. }
    destruct skip eqn:Es.
    - cbn [app]. split; [exact T1|]. split; [eapply Forall_impl; [|exact Hcn']; cbn; intros; lia|].
      split; [exact Hsf|]. split.
      { intros ->. unfold skip in Es. discriminate. }
      { intros o Ho. destruct (Hlook o Ho) as (x & Hx & Hp). exists x. split; [|exact Hp].
        unfold last' in Hx. exact Hx. }
    - cbn [app]. split; [apply asc_cons; [exact T1|exact Hcn']|].
      split; [constructor; [cbn; lia|eapply Forall_impl; [|exact Hcn']; cbn; intros; lia]|].
      split; [constructor; [left; reflexivity|exact Hsf]|].
      split; [intros _; exists period, tail; split; reflexivity|].
      intros o Ho. destruct (Hlook o Ho) as (x & Hx & Hp).
      rewrite look_cons by exact Ho. exists x. split; [|exact Hp].
      unfold last' in Hx. destruct (look ip_start tail o); exact Hx.
  Qed.
End Combine.

(** A profile as the functions of profile.cpp exchange it. *)
Definition iprof_ok (p : list iperiod) : Prop :=
  ascending ip_start p /\ Forall (fun x => 0 <= ip_start x < INT_MAX) p /\
  exists x r, p = x :: r /\ ip_start x = 0.

(** All starts lie below the length of the window. *)
Definition within (len : Z) (p : list iperiod) : Prop := Forall (fun x => 0 <= ip_start x < len) p.

Definition at_offset (o : Z) (p : list iperiod) : iperiod :=
  match look ip_start p o with Some x => x | None => no_limit_period 0 end.

Lemma iters_ok ps : Forall iprof_ok ps ->
  Forall (iter_ok 0) (iters ps) /\
  (forall o, 0 <= o -> map (cur_of o) (iters ps) = map (at_offset o) ps) /\
  (remaining (iters ps) <= length (concat ps))%nat /\
  (ps <> [] -> iters ps <> []) /\
  (forall it y, In it (iters ps) -> In y (snd it) -> exists p, In p ps /\ In y p).
Proof.
  induction ps as [|p ps IH]; intros H.
  - split; [constructor|]. split; [reflexivity|]. split; [cbn; lia|]. split; [congruence|]. intros it y [].
  - inversion H as [|? ? (Ha & Hf & x & r & -> & Hx) Hps]; subst.
    destruct (IH Hps) as (I1 & I2 & I3 & _ & I5).
    unfold iters. cbn [flat_map app]. fold (iters ps).
    destruct (asc_inv _ _ _ Ha) as [Ha' Hgt].
    split; [|split; [|split; [|split]]].
    + constructor; [|exact I1]. split; [exact Ha'|]. cbn [snd]. inversion Hf; subst.
      rewrite Forall_forall in *. intros z Hz. specialize (Hgt z Hz). specialize (H3 z Hz). lia.
    + intros o Ho. cbn [map]. rewrite I2 by exact Ho. f_equal.
      unfold cur_of, at_offset. cbn [fst snd]. rewrite look_cons by lia. reflexivity.
    + unfold remaining in *. cbn [map list_sum fold_right snd concat]. rewrite app_length. cbn [length].
      unfold list_sum in *. lia.
    + discriminate.
    + intros it y [<-|Hit] Hy.
      * exists (x :: r). split; [left; reflexivity|]. right; exact Hy.
      * destruct (I5 it y Hit Hy) as (p & Hp & Hy'). exists p. split; [right; exact Hp|exact Hy'].
Qed.

Lemma combine_ok comb ps len :
  ps <> [] -> Forall iprof_ok ps -> 0 < len -> Forall (within len) ps ->
  (forall o, 0 <= o < len -> good (comb (map (at_offset o) ps))) ->
  let l := combine_list_of_profiles ps comb in
  iprof_ok l /\ within len l /\
  (forall o, 0 <= o -> ipay (at_offset o l) = ipay (comb (map (at_offset o) ps))).
Proof.
  intros Hne H Hlen Hw Hgood. cbn zeta.
  destruct (iters_ok ps H) as (I1 & I2 & I3 & I4 & I5). specialize (I4 Hne).
  unfold combine_list_of_profiles. destruct (iters ps) as [|i0 its0] eqn:Ei; [congruence|].
  rewrite <- Ei in *. clear i0 its0 Ei I4.
  destruct (combine_loop_ok comb len (S (length (concat ps))) (iters ps) 0 None I1) as (C1 & C2 & C3 & C4 & C5); [lia|lia| | |exact I|].
  { rewrite Forall_forall in *. intros it Hit. apply Forall_forall. intros y Hy.
    destruct (I5 it y Hit Hy) as (p & Hp & Hyp). specialize (Hw p Hp). unfold within in Hw.
    rewrite Forall_forall in Hw. specialize (Hw y Hyp). lia. }
  { intros o Ho. rewrite I2 by lia. apply Hgood; exact Ho. }
  set (l := combine_loop (S (length (concat ps))) comb (iters ps) 0 None) in *.
  destruct (C4 eq_refl) as (x0 & r0 & El & Ex0).
  split; [|split].
  - split; [exact C1|]. split; [|exists x0, r0; split; assumption].
    rewrite Forall_forall in *. intros x Hx. specialize (C2 x Hx). destruct (C3 x Hx) as [E|(it & y & Hit & Hy & E)].
    + unfold INT_MAX; lia.
    + destruct (I1 it Hit) as [_ Hf]. rewrite Forall_forall in Hf. specialize (Hf y Hy). lia.
  - unfold within in *. rewrite Forall_forall in *. intros x Hx. specialize (C2 x Hx).
    destruct (C3 x Hx) as [E|(it & y & Hit & Hy & E)]; [lia|].
    destruct (I5 it y Hit Hy) as (p & Hp & Hyp). specialize (Hw p Hp). rewrite Forall_forall in Hw.
    specialize (Hw y Hyp). lia.
  - intros o Ho. destruct (C5 o Ho) as (x & Hx & Hp). rewrite I2 in Hp by exact Ho. rewrite <- Hp.
    unfold at_offset. destruct (look ip_start l o); [injection Hx as ->; reflexivity|discriminate].
Qed.

(** ** convert *)

Definition opay := first_phase.

Lemma oz_eqb_iff a b : oz_eqb a b = true <-> a = b.
Proof.
  unfold oz_eqb. destruct a as [x|], b as [y|]; rewrite ?Z.eqb_eq; split; intros H;
    try discriminate; try reflexivity; congruence.
Qed.

Lemma same_operiod_iff a b : same_operiod a b = true <-> opay a = opay b.
Proof.
  unfold same_operiod, opay, first_phase. rewrite !andb_true_iff, !oz_eqb_iff. split.
  - intros (((-> & ->) & ->) & ->). reflexivity.
  - intros H; injection H as -> -> -> ->. auto.
Qed.

Section Convert.
  Variable ar : arith.
  Variable u : runit.
  Variables dl dp v : Z.
  Let conv := convert_period ar u dl dp v.

  Lemma conv_start p : op_start (conv p) = ip_start p.
  Proof. reflexivity. Qed.

  Definition full (o : operiod) := (op_limit o, op_dis o, op_set o, op_phases o).

  Lemma conv_full p q : ipay p = ipay q -> full (conv p) = full (conv q).
  Proof.
    unfold ipay, full, conv, convert_period. intros E; injection E as -> -> -> -> -> -> ->. reflexivity.
  Qed.

  Lemma convert_loop_from l : forall last y,
    In y (convert_loop ar u dl dp v l last) -> exists x, In x l /\ y = conv x.
  Proof.
    induction l as [|p l IH]; intros last y; cbn [convert_loop]; [intros []|].
    assert (Hpush : In y (conv p :: convert_loop ar u dl dp v l (Some (conv p))) ->
                    exists x, In x (p :: l) /\ y = conv x).
    { intros [<-|Hy]; [exists p; split; [left; reflexivity|reflexivity]|].
      destruct (IH _ _ Hy) as (x & Hx & E). exists x. split; [right; exact Hx|exact E]. }
    destruct last as [b|]; [|exact Hpush].
    destruct (same_operiod _ b); [|exact Hpush].
    intros Hy. destruct (IH _ _ Hy) as (x & Hx & E). exists x. split; [right; exact Hx|exact E].
  Qed.

  Definition differs_from (last : option operiod) (l : list operiod) : Prop :=
    match last, l with
    | Some b, x :: _ => opay b <> opay x
    | _, _ => True
    end.

  Lemma convert_loop_ok l : forall last,
    ascending ip_start l ->
    let r := convert_loop ar u dl dp v l last in
    ascending op_start r /\
    incl (map op_start r) (map ip_start l) /\
    (last = None -> map op_start (firstn 1 r) = map ip_start (firstn 1 l)) /\
    differs_from last r /\ neighbours_differ r /\
    (forall o x, look ip_start l o = Some x ->
       exists y, match look op_start r o with Some z => Some z | None => last end = Some y /\
                 opay y = opay (conv x)) /\
    (forall o, look ip_start l o = None -> look op_start r o = None).
  Proof.
    induction l as [|p l IH]; intros last Ha; cbn zeta; cbn [convert_loop].
    - split; [constructor|]. split; [apply incl_refl|]. split; [reflexivity|].
      split; [destruct last; exact I|]. split; [intros a b x y E; destruct a; discriminate|].
      split; [discriminate|reflexivity].
    - destruct (asc_inv _ _ _ Ha) as [Hl Hp].
      fold conv. set (o := conv p).
      assert (Hpush : let r := o :: convert_loop ar u dl dp v l (Some o) in
        ascending op_start r /\ incl (map op_start r) (map ip_start (p :: l)) /\
        map op_start (firstn 1 r) = map ip_start (firstn 1 (p :: l)) /\ neighbours_differ r /\
        (forall t x, look ip_start (p :: l) t = Some x ->
           exists y, look op_start r t = Some y /\ opay y = opay (conv x)) /\
        (forall t, look ip_start (p :: l) t = None -> look op_start r t = None)).
      { cbn zeta. destruct (IH (Some o) Hl) as (I1 & I2 & _ & I4 & I5 & I6 & I7).
        set (r := convert_loop ar u dl dp v l (Some o)) in *.
        assert (Hs : Forall (fun y => op_start o < op_start y) r).
        { apply Forall_forall. intros y Hy. unfold o. rewrite conv_start.
          assert (Hin : In (op_start y) (map ip_start l)) by (apply I2, in_map; exact Hy).
          apply in_map_iff in Hin as (z & Ez & Hz). rewrite Forall_forall in Hp. specialize (Hp z Hz). lia. }
        split; [apply asc_cons; assumption|].
        split. { cbn [map]. unfold o at 1. rewrite conv_start. apply incl_cons; [left; reflexivity|].
                 apply incl_tl. exact I2. }
        split; [cbn [firstn map]; unfold o; rewrite conv_start; reflexivity|].
        split.
        { intros a b x y E. destruct a as [|a0 a]; cbn [app] in E.
          - injection E as <- E. unfold differs_from in I4. rewrite E in I4. exact I4.
          - injection E as _ E. exact (I5 _ _ _ _ E). }
        split.
        - intros t x. cbn [look]. rewrite <- (conv_start p). fold o.
          destruct (op_start o <=? t); [|discriminate].
          destruct (look ip_start l t) as [z|] eqn:Ez; intros E; injection E as <-.
          + destruct (I6 t z Ez) as (y & Hy & Hpay). exists y. split; [|exact Hpay].
            destruct (look op_start r t); exact Hy.
          + rewrite (I7 t Ez). exists o. split; reflexivity.
        - intros t. cbn [look]. rewrite <- (conv_start p). fold o.
          destruct (op_start o <=? t); [|reflexivity]. destruct (look ip_start l t); discriminate. }
      destruct Hpush as (P1 & P2 & P3 & P4 & P5 & P6).
      destruct last as [b|].
      + destruct (same_operiod o b) eqn:Es.
        * apply same_operiod_iff in Es.
          destruct (IH (Some b) Hl) as (I1 & I2 & _ & I4 & I5 & I6 & I7).
          set (r := convert_loop ar u dl dp v l (Some b)) in *.
          split; [exact I1|]. split; [cbn [map]; apply incl_tl; exact I2|]. split; [discriminate|].
          split; [exact I4|]. split; [exact I5|]. split.
          -- intros t x. cbn [look]. destruct (ip_start p <=? t); [|discriminate].
             destruct (look ip_start l t) as [z|] eqn:Ez; intros E; injection E as <-.
             ++ exact (I6 t z Ez).
             ++ rewrite (I7 t Ez). exists b. split; [reflexivity|]. symmetry; exact Es.
          -- intros t. cbn [look]. destruct (Z.leb_spec (ip_start p) t).
             ++ destruct (look ip_start l t); discriminate.
             ++ intros _. apply I7. apply look_none_above. eapply Forall_impl; [|exact Hp]. cbn; intros; lia.
        * split; [exact P1|]. split; [exact P2|]. split; [discriminate|]. split.
          { cbn. intros E. symmetry in E. apply same_operiod_iff in E. fold o in E. congruence. }
          split; [exact P4|]. split; [|exact P6].
          intros t x Hx. destruct (P5 t x Hx) as (y & Hy & Hpay). exists y. rewrite Hy. split; [reflexivity|exact Hpay].
      + split; [exact P1|]. split; [exact P2|]. split; [intros _; exact P3|]. split; [exact I|].
        split; [exact P4|]. split; [|exact P6].
        intros t x Hx. destruct (P5 t x Hx) as (y & Hy & Hpay). exists y. rewrite Hy. split; [reflexivity|exact Hpay].
  Qed.
End Convert.

Lemma convert_ok ar u dl dp v l :
  iprof_ok l ->
  let r := convert_intermediate_into_schedule ar l u dl dp v in
  ascending op_start r /\ (exists x q, r = x :: q /\ op_start x = 0) /\ neighbours_differ r /\
  (forall len, within len l -> Forall (fun o => 0 <= op_start o < len) r) /\
  (forall o, 0 <= o -> exists y, look op_start r o = Some y /\
                                 opay y = opay (convert_period ar u dl dp v (at_offset o l))) /\
  (forall y, In y r -> y = convert_period ar u dl dp v (at_offset (op_start y) l)).
Proof.
  intros (Ha & Hf & x0 & r0 & -> & Hx0). cbn zeta. unfold convert_intermediate_into_schedule.
  destruct (convert_loop_ok ar u dl dp v (x0 :: r0) None Ha) as (C1 & C2 & C3 & _ & C5 & C6 & _).
  set (r := convert_loop ar u dl dp v (x0 :: r0) None) in *.
  split; [exact C1|]. split.
  { specialize (C3 eq_refl). destruct r as [|y q]; cbn in C3; [discriminate|].
    injection C3 as C3. exists y, q. split; [reflexivity|lia]. }
  split; [exact C5|]. split.
  { intros len Hw. apply Forall_forall. intros y Hy.
    assert (Hin : In (op_start y) (map ip_start (x0 :: r0))) by (apply C2, in_map; exact Hy).
    apply in_map_iff in Hin as (z & Ez & Hz). unfold within in Hw. rewrite Forall_forall in Hw.
    specialize (Hw z Hz). lia. }
  split; [|intros y Hy; destruct (convert_loop_from _ _ _ _ _ _ _ _ Hy) as (x & Hx & E);
           rewrite E at 1; f_equal; unfold at_offset; rewrite E, conv_start, (look_self ip_start _ x Ha Hx); reflexivity].
  intros o Ho. unfold at_offset. rewrite look_cons by lia.
  destruct (C6 o (match look ip_start r0 o with Some y => y | None => x0 end)) as (y & Hy & Hpay).
  { rewrite look_cons by lia. reflexivity. }
  exists y. split; [|exact Hpay]. destruct (look op_start r o); [exact Hy|discriminate].
Qed.
