From Coq Require Import ZArith List Bool Lia.
From Verif Require Import WsModel WsSpec.
Import ListNotations.
Local Open Scope Z_scope.

Lemma fits_ok z : fits z = true <-> int_min <= z <= int_max.
Proof. unfold fits. rewrite andb_true_iff, !Z.leb_le. tauto. Qed.

Lemma run_app o es1 : forall es2 w,
  run o (es1 ++ es2) w =
  let (w1, x1) := run o es1 w in let (w2, x2) := run o es2 w1 in (w2, x1 ++ x2).
Proof.
  induction es1 as [|e es1 IH]; intros es2 w; cbn [run app].
  - destruct (run o es2 w). reflexivity.
  - destruct (step o e w) as [w1 x]. rewrite IH. destruct (run o es1 w1) as [w2 x1].
    destruct (run o es2 w2). reflexivity.
Qed.

Lemma run_length o es : forall w, List.length (snd (run o es w)) = List.length es.
Proof.
  induction es; intros w; cbn [run]; auto. destruct (step o a w) as [w1 x].
  specialize (IHes w1). destruct (run o es w1). cbn in *. lia.
Qed.

(** * Back-off *)

Lemma pow2_S n : 2 ^ Z.of_nat (S n) = 2 * 2 ^ Z.of_nat n.
Proof. rewrite Nat2Z.inj_succ, Z.pow_succ_r by lia. reflexivity. Qed.

Lemma delay_cons wait r r' rs : delay_s wait (r :: r' :: rs) = 2 * delay_s wait (r' :: rs) + r.
Proof. reflexivity. Qed.

Lemma delay_bounds wait range rs :
  0 <= wait -> 0 <= range -> Forall (fun r => 0 <= r <= range) rs -> rs <> [] ->
  least_delay_s wait (List.length rs) <= delay_s wait rs <= largest_delay_s wait range (List.length rs).
Proof.
  unfold least_delay_s, largest_delay_s. intros W R. induction rs as [|r rs IH]; [congruence|].
  intros F _. inversion F as [|? ? Hr Fr]; subst. destruct rs as [|r' rs].
  - cbn. lia.
  - rewrite delay_cons. specialize (IH Fr ltac:(discriminate)).
    cbn [List.length] in *. rewrite !Nat.sub_succ, Nat.sub_0_r in *. rewrite !pow2_S in *.
    set (P := 2 ^ Z.of_nat (List.length rs)) in *. nia.
Qed.

Lemma pow2_mono n m : (n <= m)%nat -> 2 ^ Z.of_nat n <= 2 ^ Z.of_nat m.
Proof. intros. apply Z.pow_le_mono_r; lia. Qed.

Lemma largest_mono wait range n m : 0 <= wait -> 0 <= range -> (n <= m)%nat ->
  largest_delay_s wait range n <= largest_delay_s wait range m.
Proof.
  intros W R L. unfold largest_delay_s.
  pose proof (pow2_mono n m L). pose proof (pow2_mono (n - 1) (m - 1) ltac:(lia)).
  nia.
Qed.

Lemma largest_step wait range n : 0 <= wait -> 0 <= range -> (1 <= n)%nat ->
  2 * largest_delay_s wait range n + range = largest_delay_s wait range (S n) /\
  range <= largest_delay_s wait range n.
Proof.
  intros W R L. unfold largest_delay_s. destruct n as [|n]; [lia|].
  rewrite !Nat.sub_succ, !Nat.sub_0_r. rewrite !pow2_S.
  assert (1 <= 2 ^ Z.of_nat n) by (change 1 with (2 ^ Z.of_nat 0); apply pow2_mono; lia).
  nia.
Qed.

(** The random parts that count, latest first. *)
Definition counted (o : options) (rs : list Z) : list Z := rev (firstn (Z.to_nat (o_repeat o + 1)) rs).

Lemma counted_snoc o rs r : (Z.of_nat (List.length rs) <= o_repeat o) -> counted o (rs ++ [r]) = r :: counted o rs.
Proof.
  intros L. unfold counted. rewrite (firstn_all2 (n := Z.to_nat (o_repeat o + 1)) (rs ++ [r])) by (rewrite app_length; cbn; lia).
  rewrite rev_app_distr. cbn. rewrite firstn_all2 by lia. reflexivity.
Qed.

Lemma counted_full o rs r : 0 <= o_repeat o -> o_repeat o < Z.of_nat (List.length rs) -> counted o (rs ++ [r]) = counted o rs.
Proof.
  intros P L. unfold counted. rewrite firstn_app.
  replace (Z.to_nat (o_repeat o + 1) - List.length rs)%nat with 0%nat by lia. cbn. rewrite app_nil_r. reflexivity.
Qed.

Lemma Forall_firstn {A} (P : A -> Prop) n : forall l, Forall P l -> Forall P (firstn n l).
Proof. induction n; intros [|x l] F; cbn; auto. inversion F; subst. auto. Qed.

Definition allowed (o : options) (n : nat) : Prop := o_max_attempts o = -1 \/ Z.of_nat n <= o_max_attempts o.

Lemma failed_step o r w : sane o -> representable o -> drawn o r ->
  forall rs, Forall (drawn o) rs ->
  w_attempts w = Z.of_nat (List.length rs) + 1 ->
  (rs <> [] -> w_backoff w = 1000 * delay_s (o_wait o) (counted o rs)) ->
  Z.of_nat (List.length rs) + 1 < int_max -> allowed o (S (List.length rs)) ->
  let (w', x) := step o (Failed r) w in
  x = ReconnectIn (1000 * delay_s (o_wait o) (counted o (rs ++ [r]))) /\
  w_attempts w' = Z.of_nat (List.length rs) + 2 /\
  w_backoff w' = 1000 * delay_s (o_wait o) (counted o (rs ++ [r])).
Proof.
  intros (W & R & P) (RB & RR) D rs F A B L M. cbn [step]. unfold loop_decision.
  cbn [w_attempts set_link].
  assert (G : (o_max_attempts o =? -1) || (w_attempts w <=? o_max_attempts o) = true).
  { apply orb_true_iff. rewrite Z.eqb_eq, Z.leb_le. destruct M as [M|M]; [auto|right; lia]. }
  rewrite G. clear G.
  unfold get_reconnect_interval. cbn [w_attempts set_link w_backoff].
  assert (G : fits (o_repeat o + 1) = true) by (apply fits_ok; unfold int_min in *; lia).
  rewrite G. clear G. cbn [negb].
  assert (Fit : forall w, w_attempts w = Z.of_nat (List.length rs) + 1 -> fits (w_attempts w + 1) = true).
  { intros v Hv. apply fits_ok. unfold int_min. lia. }
  destruct (Z.ltb_spec (o_repeat o + 1) (w_attempts w)) as [LA|LA].
  - rewrite Fit by (cbn; auto). cbn [set_attempts w_attempts w_backoff set_link].
    rewrite counted_full by lia.
    assert (rs <> []) by (destruct rs; [cbn in *; lia|discriminate]).
    repeat split; [f_equal; auto|lia|auto].
  - assert (C : counted o (rs ++ [r]) = r :: counted o rs) by (apply counted_snoc; lia).
    assert (Fc : Forall (fun x => 0 <= x <= o_range o) (counted o (rs ++ [r]))).
    { unfold counted. apply Forall_rev, Forall_firstn, Forall_app. split; auto. }
    assert (Ln : List.length (counted o (rs ++ [r])) = S (List.length rs)).
    { unfold counted. rewrite rev_length, firstn_length, app_length. cbn. lia. }
    assert (Bd := delay_bounds (o_wait o) (o_range o) _ W R Fc ltac:(rewrite C; discriminate)).
    rewrite Ln in Bd.
    assert (Mono := largest_mono (o_wait o) (o_range o) (S (List.length rs)) (Z.to_nat (o_repeat o + 1)) W R ltac:(lia)).
    assert (Lo : 0 <= least_delay_s (o_wait o) (S (List.length rs))).
    { unfold least_delay_s. apply Z.mul_nonneg_nonneg; auto. apply Z.pow_nonneg. lia. }
    destruct (Z.eqb_spec (w_attempts w) 1) as [E1|E1].
    + assert (rs = []) by (destruct rs; auto; cbn in *; lia). subst rs. cbn [app List.length] in *.
      rewrite C in *. change (counted o []) with (rev (firstn (Z.to_nat (o_repeat o + 1)) (@nil Z))) in *.
      rewrite firstn_nil in *. cbn [rev delay_s] in *.
      assert (Q1 : fits (o_wait o + r) = true) by (apply fits_ok; unfold int_min; lia).
      assert (Q2 : fits ((o_wait o + r) * 1000) = true) by (apply fits_ok; unfold int_min; lia).
      rewrite Q1, Q2. cbn [andb]. rewrite Fit by (cbn; auto). cbn [set_attempts w_attempts w_backoff set_link set_backoff].
      repeat split; [f_equal; lia|lia|lia].
    + assert (NE : rs <> []) by (intros ->; cbn in *; lia).
      specialize (B NE). rewrite C in *.
      assert (NC : exists q qs, counted o rs = q :: qs).
      { destruct (counted o rs) eqn:EC; eauto. cbn in Ln. destruct rs; [congruence|discriminate]. }
      destruct NC as (q & qs & EC). rewrite EC in *. rewrite delay_cons in *.
      unfold drawn in D.
      assert (Fq : Forall (fun x => 0 <= x <= o_range o) (q :: qs)) by (inversion Fc; auto).
      assert (Bq := delay_bounds (o_wait o) (o_range o) (q :: qs) W R Fq ltac:(discriminate)).
      assert (0 <= least_delay_s (o_wait o) (List.length (q :: qs))).
      { unfold least_delay_s. apply Z.mul_nonneg_nonneg; auto. apply Z.pow_nonneg. lia. }
      rewrite B.
      assert (Q1 : fits (1000 * delay_s (o_wait o) (q :: qs) * 2) = true) by (apply fits_ok; unfold int_min; lia).
      assert (Q2 : fits (r * 1000) = true) by (apply fits_ok; unfold int_min; lia).
      assert (Q3 : fits (1000 * delay_s (o_wait o) (q :: qs) * 2 + r * 1000) = true) by (apply fits_ok; unfold int_min; lia).
      rewrite Q1, Q2, Q3. cbn [andb]. rewrite Fit by (cbn; auto).
      cbn [set_attempts w_attempts w_backoff set_link set_backoff].
      repeat split; [f_equal; lia|lia|lia].
Qed.

Lemma failures o w : sane o -> representable o -> w_attempts w = 1 ->
  forall rs, Forall (drawn o) rs -> Z.of_nat (List.length rs) < int_max -> allowed o (List.length rs) ->
  let (w', xs) := run o (map Failed rs) w in
  w_attempts w' = Z.of_nat (List.length rs) + 1 /\
  (rs <> [] -> w_backoff w' = 1000 * delay_s (o_wait o) (counted o rs)) /\
  forall k, (k < List.length rs)%nat ->
    nth_error xs k = Some (ReconnectIn (1000 * delay_s (o_wait o) (counted o (firstn (S k) rs)))).
Proof.
  intros S R A rs. induction rs as [|r rs IH] using rev_ind; intros F L M.
  - cbn. repeat split; [lia|congruence|lia].
  - apply Forall_app in F. destruct F as [F Fr]. inversion Fr as [|? ? Dr _]; subst.
    rewrite app_length in *. cbn [List.length] in *.
    assert (M' : allowed o (List.length rs)) by (destruct M as [M|M]; [left; auto|right; lia]).
    specialize (IH F ltac:(lia) M'). rewrite map_app, run_app.
    pose proof (run_length o (map Failed rs) w) as RL.
    destruct (run o (map Failed rs) w) as [w1 xs]. cbn [snd] in RL. rewrite map_length in RL.
    destruct IH as (IA & IB & IX). cbn [map run].
    assert (M2 : allowed o (Datatypes.S (List.length rs))) by (destruct M as [M|M]; [left; auto|right; lia]).
    pose proof (failed_step o r w1 S R Dr rs F IA IB ltac:(lia) M2) as H.
    destruct (step o (Failed r) w1) as [w2 x]. destruct H as (Hx & HA & HB).
    repeat split; [lia|auto|].
    intros k K. destruct (Nat.eq_dec k (List.length rs)) as [-> |NK].
    + rewrite nth_error_app2 by lia. rewrite RL, Nat.sub_diag. cbn [nth_error].
      rewrite Hx. rewrite (firstn_all2 (n := Datatypes.S (List.length rs)) (rs ++ [r])) by (rewrite app_length; cbn; lia).
      reflexivity.
    + rewrite nth_error_app1 by lia. rewrite IX by lia. rewrite (firstn_app (Datatypes.S k)).
      replace (Datatypes.S k - List.length rs)%nat with 0%nat by lia. cbn [firstn]. rewrite app_nil_r. reflexivity.
Qed.

(** * Ping *)

Lemma ticks_before_ping o w i : w_timer w = true -> w_cleared w = true ->
  forall n, w_interval w = i -> w_ping_el w + Z.of_nat n <= i ->
  run o (repeat Tick n) w = (set_ping true (w_ping_el w + Z.of_nat n) (w_pong_el w) w, repeat Nothing n).
Proof.
  intros T C n. revert w T C. induction n as [|n IH]; intros w T C I L.
  - cbn. rewrite Z.add_0_r. destruct w; cbn in *; subst; reflexivity.
  - cbn [repeat run step]. unfold tick. rewrite T, C. cbn [negb].
    destruct (Z.ltb_spec (w_interval w) (w_ping_el w + 1)); [lia|].
    rewrite IH; cbn; auto; try lia.
    replace (w_ping_el w + 1 + Z.of_nat n) with (w_ping_el w + Z.pos (Pos.of_succ_nat n)) by lia. reflexivity.
Qed.

Lemma ticks_before_timeout o w p : w_timer w = true -> w_cleared w = false ->
  forall n, w_pong_timeout w = p -> w_pong_el w + Z.of_nat n <= p ->
  run o (repeat Tick n) w = (set_ping false (w_ping_el w) (w_pong_el w + Z.of_nat n) w, repeat Nothing n).
Proof.
  intros T C n. revert w T C. induction n as [|n IH]; intros w T C I L.
  - cbn. rewrite Z.add_0_r. destruct w; cbn in *; subst; reflexivity.
  - cbn [repeat run step]. unfold tick. rewrite T, C. cbn [negb].
    destruct (Z.ltb_spec (w_pong_timeout w) (w_pong_el w + 1)); [lia|].
    rewrite IH; cbn; auto; try lia.
    replace (w_pong_el w + 1 + Z.of_nat n) with (w_pong_el w + Z.pos (Pos.of_succ_nat n)) by lia. reflexivity.
Qed.

(** Where a pending ping comes from. *)
Definition justified (o : options) (w0 : ws) (es : list event) : Prop :=
  exists es1 n, es = es1 ++ Tick :: repeat Tick n /\
    snd (step o Tick (fst (run o es1 w0))) = Ping /\
    w_pong_el (fst (run o es w0)) = Z.of_nat n.

Lemma pending_ping o w0 : w_cleared w0 = true -> w_connected w0 = true ->
  forall es, Forall standing es ->
  let w := fst (run o es w0) in
  w_pong_timeout w = w_pong_timeout w0 /\
  (w_timer w = true -> w_connected w = true) /\
  (w_timer w = false \/ w_cleared w = true \/ justified o w0 es).
Proof.
  intros C K es. induction es as [|e es IH] using rev_ind; intros F.
  - cbn. auto.
  - apply Forall_app in F. destruct F as [F Fe]. inversion Fe as [|? ? He _]; subst. specialize (IH F).
    cbv zeta in *. unfold justified. rewrite run_app. unfold justified in IH.
    destruct (run o es w0) as [w xs] eqn:E. cbn [fst] in IH. cbn [run].
    destruct He as [-> | ->].
    + cbn [step]. destruct (tick w) as [w' x] eqn:T. cbn [fst].
      unfold tick in T. destruct (w_timer w) eqn:Et; cbn [negb] in T.
      2:{ injection T as <- <-. rewrite Et. intuition. }
      destruct IH as (IP & IC & [IH|IH]); [discriminate|]. specialize (IC eq_refl).
      destruct (w_cleared w) eqn:Ec; cbn [negb] in T.
      * destruct (w_interval w <? w_ping_el w + 1) eqn:Ei; injection T as <- <-; cbn; repeat split; auto.
        right. right. exists es, 0%nat. cbn [repeat]. repeat split; auto.
        rewrite E. cbn [fst step]. unfold tick. rewrite Et, Ec, Ei, IC. reflexivity.
      * destruct IH as [IH|(es1 & n & -> & PG & PE)]; [discriminate|].
        destruct (w_pong_timeout w <? w_pong_el w + 1); injection T as <- <-; cbn; repeat split; auto.
        right. right. exists es1, (S n). repeat split; auto.
        -- rewrite <- app_assoc. cbn [app]. do 2 f_equal.
           change (repeat Tick n ++ repeat Tick 1 = repeat Tick (1 + n)). rewrite <- repeat_app. f_equal. lia.
        -- rewrite PE. lia.
    + cbn. intuition.
Qed.

(** Without changing the interval while the connection is down, the timer only runs on a standing connection. *)
Definition no_set_ping (e : event) : Prop := match e with SetPing _ _ => False | _ => True end.

Lemma timer_connected o es : forall w, Forall no_set_ping es ->
  (w_timer w = true -> w_connected w = true) ->
  w_timer (fst (run o es w)) = true -> w_connected (fst (run o es w)) = true.
Proof.
  induction es as [|e es IH]; intros w F H; cbn [run]; auto.
  inversion F as [|? ? Fe Fr]; subst.
  assert (H1 : w_timer (fst (step o e w)) = true -> w_connected (fst (step o e w)) = true).
  { destruct e; cbn [step]; auto; try contradiction.
    - unfold loop_decision, get_reconnect_interval.
      repeat match goal with |- context [if ?c then _ else _] => destruct c; cbn; auto end.
    - unfold tick. destruct (negb (w_timer w)); [auto|]. destruct (negb (w_cleared w)).
      + destruct (w_pong_timeout w <? w_pong_el w + 1); cbn; auto.
      + destruct (w_interval w <? w_ping_el w + 1); cbn; auto. }
  destruct (step o e w) as [w1 x]. cbn [fst] in H1. specialize (IH w1 Fr H1).
  destruct (run o es w1). exact IH.
Qed.
