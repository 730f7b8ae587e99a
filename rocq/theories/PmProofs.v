(** Proofs about sending through the websocket (PmModel, PmSpec). *)

From Coq Require Import List Bool Arith Sorted Lia.
From Verif Require Import PmModel PmSpec.
Import ListNotations.

Lemma upd_same : forall A (f : nat -> A) m v, upd f m v m = v.
Proof. intros. unfold upd. rewrite Nat.eqb_refl. reflexivity. Qed.
Lemma upd_other : forall A (f : nat -> A) m v n, n <> m -> upd f m v n = f n.
Proof. intros. unfold upd. destruct (Nat.eqb_spec n m); congruence. Qed.

Lemma nth_app_old : forall l n m, m < List.length l -> nth m (l ++ [n]) 0 = nth m l 0.
Proof. intros. apply app_nth1. assumption. Qed.

(** The messages of the queue come after those popped. *)
Record inv (s : state) : Prop := {
  i_queue : StronglySorted lt (queue s);
  i_range : forall m, In m (queue s) -> m < length (lens s);
  i_fresh : forall m, length (lens s) <= m -> bytes s m = 0 /\ sent s m = false /\ waiter s m = Absent;
  i_bytes : forall m, bytes s m = 0 \/ (bytes s m = len s m /\ In (m, len s m) (wire s));
  i_sent : forall m, sent s m = true -> len s m = 0 \/ In (m, len s m) (wire s);
  i_ret : forall m, waiter s m = Returned true -> sent s m = true;
  i_mark : forall m, writer s = Marked m ->
    sent s m = true /\ len s m <= bytes s m /\ exists q, queue s = m :: q;
  i_wire : forall m k, In (m, k) (wire s) -> m < length (lens s);
  i_sorted : StronglySorted lt (whole (lens s) (wire s));
  i_whole : forall m q, In m (whole (lens s) (wire s)) -> queue s <> [] -> hd 0 (queue s) = q ->
    m < q \/ (m = q /\ bytes s q = len s q) }.

Lemma inv_init : inv init.
Proof.
  constructor; cbn; intros; try contradiction; try discriminate; auto; constructor.
Qed.

Lemma whole_app : forall l w v, whole l (w ++ v) = whole l w ++ whole l v.
Proof. intros. unfold whole. rewrite filter_app, map_app. reflexivity. Qed.

Lemma whole_grow : forall l n w, (forall m k, In (m, k) w -> m < length l) ->
  whole (l ++ [n]) w = whole l w.
Proof.
  intros l n w H. unfold whole. f_equal. apply filter_ext_in. intros [m k] Hi.
  cbn [fst snd]. rewrite nth_app_old; [reflexivity|]. exact (H m k Hi).
Qed.

Lemma whole_in : forall l w m, In m (whole l w) -> In (m, nth m l 0) w.
Proof.
  intros l w m H. unfold whole in H. apply in_map_iff in H. destruct H as [[a b] [E Hi]].
  apply filter_In in Hi. destruct Hi as [Hi Hb]. cbn in *. subst a.
  apply Nat.eqb_eq in Hb. subst b. exact Hi.
Qed.

Lemma sorted_snoc : forall l x, StronglySorted lt l -> (forall y, In y l -> y < x) ->
  StronglySorted lt (l ++ [x]).
Proof.
  induction l as [|a l IH]; intros x H B; cbn; [repeat constructor|].
  apply StronglySorted_inv in H. destruct H as [H F].
  constructor; [apply IH; [exact H | intros; apply B; right; assumption]|].
  apply Forall_app. split; [exact F|]. constructor; [apply B; left; reflexivity | constructor].
Qed.

(** Steps that leave queue, bytes, sent, writer and wire alone. *)
Lemma inv_waiter : forall s m p t, inv s -> waiter s m <> Absent ->
  (p = Returned true -> sent s m = true) ->
  inv {| lens := lens s; queue := queue s; bytes := bytes s; sent := sent s;
         waiter := upd (waiter s) m p; writer := writer s; to_notify := t; wire := wire s |}.
Proof.
  intros s m p t [Q R F B St Re Mk Wi So Wh] N P.
  constructor; cbn; try assumption.
  - intros n Hn. destruct (F n Hn) as [F1 [F2 F3]]. repeat split; try assumption.
    rewrite upd_other; [exact F3|]. intros ->. congruence.
  - intros n. destruct (Nat.eq_dec n m) as [->|D].
    + rewrite upd_same. exact P.
    + rewrite upd_other by exact D. apply Re.
Qed.

Lemma inv_notify : forall s t, inv s ->
  inv {| lens := lens s; queue := queue s; bytes := bytes s; sent := sent s;
         waiter := waiter s; writer := writer s; to_notify := t; wire := wire s |}.
Proof. intros s t [Q R F B St Re Mk Wi So Wh]. constructor; cbn; assumption. Qed.

Lemma inv_step : forall s e s', inv s -> step s e = Some s' -> inv s'.
Proof.
  intros s e s' I H. destruct e as [n|m|m|m|w|r| | |]; cbn [step] in H.
  - (* send *)
    destruct (locked s); [discriminate|]. injection H as <-.
    destruct I as [Q R F B St Re Mk Wi So Wh].
    destruct (F (length (lens s)) (le_n _)) as [F1 [F2 F3]].
    assert (L : forall m, m < length (lens s) -> nth m (lens s ++ [n]) 0 = nth m (lens s) 0)
      by (intros; apply nth_app_old; assumption).
    constructor; unfold len; cbn [lens queue bytes sent waiter writer to_notify wire].
    + apply sorted_snoc; assumption.
    + intros m Hm. rewrite app_length. cbn. apply in_app_or in Hm.
      destruct Hm as [Hm|[<-|[]]]; [specialize (R m Hm)|]; lia.
    + intros m Hm. rewrite app_length in Hm. cbn in Hm.
      destruct (F m) as [G1 [G2 G3]]; [lia|]. repeat split; try assumption.
      rewrite upd_other; [exact G3|lia].
    + intros m. destruct (B m) as [Bm|[Bm Wm]]; [left; exact Bm|].
      destruct (lt_dec m (length (lens s))) as [D|D].
      * right. rewrite L by exact D. auto.
      * left. apply F. lia.
    + intros m Hm. destruct (lt_dec m (length (lens s))) as [D|D].
      * rewrite L by exact D. apply St. exact Hm.
      * destruct (F m) as [_ [G _]]; [lia|]. congruence.
    + intros m. destruct (Nat.eq_dec m (length (lens s))) as [->|D].
      * rewrite upd_same. discriminate.
      * rewrite upd_other by exact D. apply Re.
    + intros m Hm. destruct (Mk m Hm) as [M1 [M2 [q M3]]].
      assert (D : m < length (lens s)) by (apply R; rewrite M3; left; reflexivity).
      rewrite L by exact D. split; [exact M1|]. split; [exact M2|].
      exists (q ++ [length (lens s)]). rewrite M3. reflexivity.
    + intros m k Hm. rewrite app_length. cbn. specialize (Wi m k Hm). lia.
    + rewrite whole_grow by exact Wi. exact So.
    + intros m q Hm Hn Hq. rewrite whole_grow in Hm by exact Wi.
      destruct (queue s) as [|q0 qs] eqn:Eq; cbn in Hq.
      * left. subst q. exact (Wi _ _ (whole_in _ _ _ Hm)).
      * subst q0. assert (D : q < length (lens s)) by (apply R; left; reflexivity).
        rewrite L by exact D. apply (Wh m q Hm); [discriminate|reflexivity].
  - (* test *)
    destruct (waiter s m) eqn:E; try discriminate; destruct (locked s); try discriminate;
      injection H as <-; apply inv_waiter; try assumption; try congruence;
      destruct (sent s m); congruence.
  - (* sleep *)
    destruct (waiter s m) eqn:E; try discriminate. injection H as <-.
    apply inv_waiter; try assumption; congruence.
  - (* timeout *)
    destruct (waiter s m) eqn:E; try discriminate; destruct (locked s); try discriminate;
      injection H as <-; apply inv_waiter; try assumption; congruence.
  - (* notify *)
    destruct (to_notify s) as [|n]; [discriminate|]. destruct w as [m|].
    + destruct (waiter s m) eqn:E; try discriminate. injection H as <-.
      apply (inv_waiter s m Woken n I); congruence.
    + destruct (someone_asleep s); [discriminate|]. injection H as <-. apply inv_notify. exact I.
  - (* write *)
    destruct (writer s) eqn:Ew; [|discriminate].
    destruct (queue s) as [|m q] eqn:Eq; [discriminate|].
    destruct (Nat.leb_spec (len s m) (bytes s m)) as [D|D]; [discriminate|].
    pose proof I as I0. destruct I as [Q R F B St Re Mk Wi So Wh].
    assert (Bm : bytes s m = 0) by (destruct (B m) as [X|[X _]]; [exact X|lia]).
    assert (Rm : m < length (lens s)) by (apply R; rewrite Eq; left; reflexivity).
    assert (Fm : forall n v, length (lens s) <= n -> upd (bytes s) m v n = bytes s n)
      by (intros n v Hn; apply upd_other; lia).
    assert (Wlt : forall a, In a (whole (lens s) (wire s)) -> a < m).
    { intros a Ha. destruct (Wh a m Ha) as [X|[-> X]].
      - rewrite Eq. discriminate.
      - rewrite Eq. reflexivity.
      - exact X.
      - lia. }
    destruct r as [|k|].
    + injection H as <-. constructor; unfold len in *; cbn [lens queue bytes sent waiter writer to_notify wire] in *.
      * rewrite Eq in Q. exact Q.
      * rewrite Eq in R. exact R.
      * intros n Hn. rewrite Fm by exact Hn. apply F. exact Hn.
      * intros n. destruct (Nat.eq_dec n m) as [->|N].
        -- rewrite upd_same. right. split; [reflexivity|]. apply in_or_app. right. left. reflexivity.
        -- rewrite upd_other by exact N. destruct (B n) as [X|[X Y]]; [auto|].
           right. split; [exact X|]. apply in_or_app. left. exact Y.
      * intros n Hn. destruct (St n Hn) as [X|X]; [auto|]. right. apply in_or_app. left. exact X.
      * exact Re.
      * discriminate.
      * intros n k Hi. apply in_app_or in Hi. destruct Hi as [Hi|[Hi|[]]].
        -- exact (Wi n k Hi).
        -- injection Hi as <- <-. exact Rm.
      * rewrite whole_app. unfold whole at 2. cbn [filter fst snd map]. rewrite Nat.eqb_refl.
        apply sorted_snoc; assumption.
      * intros a b Ha _ Hb. cbn in Hb. subst b. rewrite upd_same.
        rewrite whole_app in Ha. apply in_app_or in Ha. destruct Ha as [Ha|Ha].
        -- left. apply Wlt. exact Ha.
        -- unfold whole in Ha. cbn [filter fst snd map] in Ha. rewrite Nat.eqb_refl in Ha.
           destruct Ha as [<-|[]]. right. auto.
    + destruct (Nat.ltb_spec k (len s m)) as [K|K]; [|discriminate].
      injection H as <-.
      assert (Wk : whole (lens s) [(m, k)] = []).
      { unfold whole. cbn [filter fst snd map]. destruct (Nat.eqb_spec k (nth m (lens s) 0)) as [X|X].
        - unfold len in K. lia.
        - reflexivity. }
      constructor; unfold len in *; cbn [lens queue bytes sent waiter writer to_notify wire] in *.
      * rewrite Eq in Q. exact Q.
      * rewrite Eq in R. exact R.
      * intros n Hn. rewrite Fm by exact Hn. apply F. exact Hn.
      * intros n. destruct (Nat.eq_dec n m) as [->|N].
        -- rewrite upd_same. auto.
        -- rewrite upd_other by exact N. destruct (B n) as [X|[X Y]]; [auto|].
           right. split; [exact X|]. apply in_or_app. left. exact Y.
      * intros n Hn. destruct (St n Hn) as [X|X]; [auto|]. right. apply in_or_app. left. exact X.
      * exact Re.
      * discriminate.
      * intros n j Hi. apply in_app_or in Hi. destruct Hi as [Hi|[Hi|[]]].
        -- exact (Wi n j Hi).
        -- injection Hi as <- <-. exact Rm.
      * rewrite whole_app, Wk, app_nil_r. exact So.
      * intros a b Ha _ Hb. cbn in Hb. subst b. rewrite whole_app, Wk, app_nil_r in Ha.
        left. apply Wlt. exact Ha.
    + injection H as <-. constructor; unfold len in *; cbn [lens queue bytes sent waiter writer to_notify wire] in *.
      * rewrite Eq in Q. exact Q.
      * rewrite Eq in R. exact R.
      * intros n Hn. rewrite Fm by exact Hn. apply F. exact Hn.
      * intros n. destruct (Nat.eq_dec n m) as [->|N]; [rewrite upd_same; auto|].
        rewrite upd_other by exact N. apply B.
      * exact St.
      * exact Re.
      * discriminate.
      * exact Wi.
      * exact So.
      * intros a b Ha _ Hb. cbn in Hb. subst b. left. apply Wlt. exact Ha.
  - (* mark *)
    destruct (writer s) eqn:Ew; [|discriminate].
    destruct (queue s) as [|m q] eqn:Eq; [discriminate|].
    destruct (Nat.leb_spec (len s m) (bytes s m)) as [D|D]; [|discriminate].
    injection H as <-. destruct I as [Q R F B St Re Mk Wi So Wh].
    assert (Rm : m < length (lens s)) by (apply R; rewrite Eq; left; reflexivity).
    constructor; unfold len in *; cbn [lens queue bytes sent waiter writer to_notify wire] in *.
    + rewrite Eq in Q. exact Q.
    + rewrite Eq in R. exact R.
    + intros n Hn. rewrite upd_other by lia. apply F. exact Hn.
    + exact B.
    + intros n. destruct (Nat.eq_dec n m) as [->|N].
      * intros _. destruct (B m) as [X|[X Y]]; [left; lia|right; exact Y].
      * rewrite upd_other by exact N. apply St.
    + intros n Hn. destruct (Nat.eq_dec n m) as [->|N]; [apply upd_same|].
      rewrite upd_other by exact N. apply Re. exact Hn.
    + intros n [= <-]. rewrite upd_same. split; [reflexivity|]. split; [exact D|]. eauto.
    + exact Wi.
    + exact So.
    + rewrite Eq in Wh. exact Wh.
  - (* pop *)
    destruct (writer s) as [|m0] eqn:Ew; [discriminate|].
    destruct (locked s); [discriminate|]. injection H as <-.
    destruct I as [Q R F B St Re Mk Wi So Wh].
    destruct (Mk m0 Ew) as [M1 [M2 [q M3]]]. rewrite M3 in Q, R, Wh |- *. cbn [tl].
    apply StronglySorted_inv in Q. destruct Q as [Q G].
    constructor; unfold len in *; cbn [lens queue bytes sent waiter writer to_notify wire] in *;
      try assumption; try discriminate.
    + intros m Hm. apply R. right. exact Hm.
    + intros a b Ha Hn Hb. left. destruct q as [|b' q']; [congruence|]. cbn in Hb. subst b'.
      apply Forall_inv in G.
      destruct (Wh a m0 Ha) as [X|[X _]]; [discriminate|reflexivity| |]; lia.
  - (* clear *)
    destruct (writer s) eqn:Ew; [|discriminate].
    destruct (locked s); [discriminate|]. injection H as <-.
    destruct I as [Q R F B St Re Mk Wi So Wh].
    constructor; unfold len in *; cbn [lens queue bytes sent waiter writer to_notify wire] in *;
      try assumption; try discriminate; try contradiction; try constructor.
Qed.

Lemma inv_run : forall es s s', inv s -> run s es = Some s' -> inv s'.
Proof.
  induction es as [|e es IH]; intros s s' I H; cbn in H.
  - injection H as <-. exact I.
  - destruct (step s e) as [s1|] eqn:E; [|discriminate].
    apply (IH s1); [eapply inv_step; eassumption | exact H].
Qed.

Lemma messages_cons : forall e es, messages (e :: es) = messages [e] ++ messages es.
Proof. intros [] es; reflexivity. Qed.

Lemma lens_step : forall s e s', step s e = Some s' -> lens s' = lens s ++ messages [e].
Proof.
  intros s e s' H. destruct e as [n|m|m|m|w|r| | |]; cbn [step messages] in H |- *; rewrite ?app_nil_r;
    repeat match type of H with
    | context [match ?x with _ => _ end] => destruct x; try discriminate H
    end; injection H as <-; reflexivity.
Qed.

Lemma lens_run : forall es s s', run s es = Some s' -> lens s' = lens s ++ messages es.
Proof.
  induction es as [|e es IH]; intros s s' H; cbn [run] in H.
  - injection H as <-. cbn. rewrite app_nil_r. reflexivity.
  - destruct (step s e) as [s1|] eqn:E; [|discriminate].
    rewrite (IH _ _ H), (lens_step _ _ _ E), (messages_cons e es), app_assoc. reflexivity.
Qed.

(** With one thread waiting at a time, a thread that sleeps on a message that was
    sent is about to be woken. *)
Definition inv2 (s : state) : Prop :=
  (forall m n, waiting (waiter s m) -> waiting (waiter s n) -> m = n) /\
  (forall m, waiter s m = Decided -> sent s m = true -> writer s = Marked m) /\
  (forall m, waiter s m = Asleep -> sent s m = true -> writer s = Marked m \/ 0 < to_notify s).

Lemma not_locked : forall s m, locked s = false -> m < length (lens s) -> waiter s m <> Decided.
Proof.
  intros s m H L E. unfold locked in H.
  assert (X : existsb (fun m => is_decided (waiter s m)) (seq 0 (length (lens s))) = true).
  { apply existsb_exists. exists m. split; [apply in_seq; lia|]. rewrite E. reflexivity. }
  congruence.
Qed.

Lemma is_waiting_asleep : forall p, p = Asleep -> waiting p.
Proof. intros p ->. unfold waiting. auto. Qed.

Lemma waiting_upd : forall (f : nat -> pc) m p n, waiting (upd f m p n) ->
  (n = m /\ waiting p) \/ (n <> m /\ waiting (f n)).
Proof.
  intros f m p n H. destruct (Nat.eq_dec n m) as [->|D].
  - rewrite upd_same in H. auto.
  - rewrite upd_other in H by exact D. auto.
Qed.

Lemma one_upd : forall s m p,
  (forall a b, waiting (waiter s a) -> waiting (waiter s b) -> a = b) -> waiting (waiter s m) ->
  forall a b, waiting (upd (waiter s) m p a) -> waiting (upd (waiter s) m p b) -> a = b.
Proof.
  intros s m p O W a b Ha Hb.
  apply waiting_upd in Ha. apply waiting_upd in Hb.
  destruct Ha as [[-> _]|[_ Ha]], Hb as [[-> _]|[_ Hb]]; auto.
Qed.

Lemma inv2_step : forall s e s', inv s -> inv2 s ->
  (forall n, e = Send n -> forall m, ~ waiting (waiter s m)) ->
  step s e = Some s' -> inv2 s'.
Proof.
  intros s e s' I [O [D A]] C H. destruct e as [n|m|m|m|w|r| | |]; cbn [step] in H.
  - (* send *)
    specialize (C n eq_refl).
    destruct (locked s); [discriminate|]. injection H as <-. unfold inv2; cbn.
    destruct (i_fresh _ I (length (lens s)) (le_n _)) as [_ [Fs _]].
    split; [|split].
    + intros a b Ha Hb. apply waiting_upd in Ha. apply waiting_upd in Hb.
      destruct Ha as [[-> _]|[_ Ha]]; [|elim (C _ Ha)].
      destruct Hb as [[-> _]|[_ Hb]]; [reflexivity|elim (C _ Hb)].
    + intros m Hm Sm. destruct (Nat.eq_dec m (length (lens s))) as [->|N]; [congruence|].
      rewrite upd_other in Hm by exact N. apply D; assumption.
    + intros m Hm Sm. right. lia.
  - (* test *)
    assert (X : locked s = false /\ waiting (waiter s m) /\
                s' = set_waiter s m (if sent s m then Returned true else Decided)).
    { unfold waiting. destruct (waiter s m); try discriminate; destruct (locked s); try discriminate;
        injection H as <-; auto 6. }
    destruct X as [L [W ->]]. unfold inv2; cbn. split; [|split].
    + apply one_upd; assumption.
    + intros a Ha Sa. destruct (Nat.eq_dec a m) as [->|N].
      * rewrite upd_same, Sa in Ha. discriminate.
      * rewrite upd_other in Ha by exact N. apply D; assumption.
    + intros a Ha Sa. destruct (Nat.eq_dec a m) as [->|N].
      * rewrite upd_same, Sa in Ha. discriminate.
      * rewrite upd_other in Ha by exact N. apply A; assumption.
  - (* sleep *)
    destruct (waiter s m) eqn:E; try discriminate. injection H as <-. unfold inv2; cbn.
    assert (W : waiting (waiter s m)) by (rewrite E; unfold waiting; auto).
    split; [|split].
    + apply one_upd; assumption.
    + intros a Ha Sa. destruct (Nat.eq_dec a m) as [->|N].
      * rewrite upd_same in Ha. discriminate.
      * rewrite upd_other in Ha by exact N. apply D; assumption.
    + intros a Ha Sa. destruct (Nat.eq_dec a m) as [->|N].
      * left. apply D; assumption.
      * rewrite upd_other in Ha by exact N. apply A; assumption.
  - (* timeout *)
    assert (X : waiting (waiter s m) /\ s' = set_waiter s m (Returned (sent s m))).
    { unfold waiting. destruct (waiter s m); try discriminate; destruct (locked s); try discriminate;
        injection H as <-; auto 6. }
    destruct X as [W ->]. unfold inv2; cbn. split; [|split].
    + apply one_upd; assumption.
    + intros a Ha Sa. destruct (Nat.eq_dec a m) as [->|N].
      * rewrite upd_same in Ha. discriminate.
      * rewrite upd_other in Ha by exact N. apply D; assumption.
    + intros a Ha Sa. destruct (Nat.eq_dec a m) as [->|N].
      * rewrite upd_same in Ha. discriminate.
      * rewrite upd_other in Ha by exact N. apply A; assumption.
  - (* notify *)
    destruct (to_notify s) as [|n] eqn:En; [discriminate|]. destruct w as [m|].
    + destruct (waiter s m) eqn:E; try discriminate. injection H as <-. unfold inv2; cbn.
      assert (W : waiting (waiter s m)) by (rewrite E; unfold waiting; auto).
      split; [|split].
      * apply one_upd; assumption.
      * intros a Ha Sa. destruct (Nat.eq_dec a m) as [->|N].
        -- rewrite upd_same in Ha. discriminate.
        -- rewrite upd_other in Ha by exact N. apply D; assumption.
      * intros a Ha Sa. destruct (Nat.eq_dec a m) as [->|N].
        -- rewrite upd_same in Ha. discriminate.
        -- rewrite upd_other in Ha by exact N. elim N. apply O; [|exact W].
           apply is_waiting_asleep. exact Ha.
    + destruct (someone_asleep s) eqn:Es; [discriminate|]. injection H as <-. unfold inv2; cbn.
      split; [exact O|split; [exact D|]].
      intros a Ha _. exfalso.
      assert (La : a < length (lens s)).
      { destruct (le_lt_dec (length (lens s)) a) as [L|L]; [|exact L].
        destruct (i_fresh _ I a L) as [_ [_ X]]. congruence. }
      unfold someone_asleep in Es.
      assert (X : existsb (fun m => is_asleep (waiter s m)) (seq 0 (length (lens s))) = true).
      { apply existsb_exists. exists a. split; [apply in_seq; lia|]. rewrite Ha. reflexivity. }
      congruence.
  - (* write *)
    assert (X : writer s = Idle /\ writer s' = Idle /\ waiter s' = waiter s /\ sent s' = sent s /\ to_notify s' = to_notify s).
    { destruct (writer s); [|discriminate]. destruct (queue s) as [|m q]; [discriminate|].
      destruct (len s m <=? bytes s m); [discriminate|].
      destruct r as [|k|]; [| destruct (k <? len s m); [|discriminate] |]; injection H as <-; auto. }
    destruct X as [Wi [X1 [X2 [X3 X4]]]]. unfold inv2. rewrite X1, X2, X3, X4.
    split; [exact O|]. split.
    + intros a Ha Sa. specialize (D a Ha Sa). congruence.
    + intros a Ha Sa. destruct (A a Ha Sa) as [Y|Y]; [congruence|auto].
  - (* mark *)
    destruct (writer s) eqn:Ew; [|discriminate].
    destruct (queue s) as [|m q]; [discriminate|].
    destruct (len s m <=? bytes s m); [|discriminate]. injection H as <-. unfold inv2; cbn.
    split; [exact O|]. split.
    + intros a Ha Sa. destruct (Nat.eq_dec a m) as [->|N]; [reflexivity|].
      rewrite upd_other in Sa by exact N. specialize (D a Ha Sa). congruence.
    + intros a Ha Sa. destruct (Nat.eq_dec a m) as [->|N]; [auto|].
      rewrite upd_other in Sa by exact N. destruct (A a Ha Sa) as [Y|Y]; [congruence|auto].
  - (* pop *)
    destruct (writer s) as [|m0] eqn:Ew; [discriminate|].
    destruct (locked s) eqn:L; [discriminate|]. injection H as <-. unfold inv2; cbn.
    split; [exact O|]. split.
    + intros a Ha _. exfalso.
      destruct (le_lt_dec (length (lens s)) a) as [La|La].
      * destruct (i_fresh _ I a La) as [_ [_ X]]. congruence.
      * exact (not_locked s a L La Ha).
    + intros a _ _. right. lia.
  - (* clear *)
    destruct (writer s) eqn:Ew; [|discriminate].
    destruct (locked s) eqn:L; [discriminate|]. injection H as <-. unfold inv2; cbn.
    split; [exact O|]. split.
    + intros a Ha Sa. specialize (D a Ha Sa). congruence.
    + intros a _ _. right. lia.
Qed.

Lemma inv2_run : forall es s s', inv s -> inv2 s -> one_at_a_time s es -> run s es = Some s' -> inv2 s'.
Proof.
  induction es as [|e es IH]; intros s s' I J C H; cbn in H.
  - injection H as <-. exact J.
  - cbn in C. destruct C as [C1 C2]. destruct (step s e) as [s1|] eqn:E; [|discriminate].
    apply (IH s1); auto; [eapply inv_step | eapply inv2_step]; eassumption.
Qed.

Lemma inv2_init : inv2 init.
Proof.
  unfold inv2, waiting; cbn. split; [|split]; intros; try discriminate.
  destruct H as [X|[X|[X|X]]]; discriminate.
Qed.

(** Without a clear, every message waits or was written. *)
Definition inv3 (s : state) : Prop :=
  forall m, m < length (lens s) -> In m (queue s) \/ len s m = 0 \/ In (m, len s m) (wire s).

Lemma inv3_same : forall s s', inv3 s -> lens s' = lens s -> queue s' = queue s ->
  (forall x, In x (wire s) -> In x (wire s')) -> inv3 s'.
Proof.
  intros s s' H L Q W m Hm. unfold len in *. rewrite L in *. rewrite Q.
  destruct (H m Hm) as [X|[X|X]]; auto.
Qed.

Lemma inv3_step : forall s e s', inv s -> inv3 s -> e <> Clear -> step s e = Some s' -> inv3 s'.
Proof.
  intros s e s' I J C H. destruct e as [n|m|m|m|w|r| | |]; cbn [step] in H.
  - destruct (locked s); [discriminate|]. injection H as <-. intros m Hm. unfold len in *.
    cbn [lens queue wire] in *. rewrite app_length in Hm. cbn in Hm.
    destruct (Nat.eq_dec m (length (lens s))) as [->|N].
    + left. apply in_or_app. right. left. reflexivity.
    + rewrite nth_app_old by lia. destruct (J m) as [X|[X|X]]; [lia| | |]; auto.
      left. apply in_or_app. auto.
  - destruct (waiter s m); try discriminate; destruct (locked s); try discriminate; injection H as <-;
      apply (inv3_same s); auto.
  - destruct (waiter s m); try discriminate; injection H as <-; apply (inv3_same s); auto.
  - destruct (waiter s m); try discriminate; destruct (locked s); try discriminate; injection H as <-;
      apply (inv3_same s); auto.
  - destruct (to_notify s); [discriminate|]. destruct w as [m|].
    + destruct (waiter s m); try discriminate; injection H as <-; apply (inv3_same s); auto.
    + destruct (someone_asleep s); [discriminate|]. injection H as <-; apply (inv3_same s); auto.
  - destruct (writer s); [|discriminate]. destruct (queue s) as [|m q] eqn:Eq; [discriminate|].
    destruct (len s m <=? bytes s m); [discriminate|].
    destruct r as [|k|]; [| destruct (k <? len s m); [|discriminate] |]; injection H as <-;
      apply (inv3_same s); auto; intros x Hx; cbn; try apply in_or_app; auto.
  - destruct (writer s); [|discriminate]. destruct (queue s) as [|m q] eqn:Eq; [discriminate|].
    destruct (len s m <=? bytes s m); [|discriminate]. injection H as <-; apply (inv3_same s); auto.
  - destruct (writer s) as [|m0] eqn:Ew; [discriminate|]. destruct (locked s); [discriminate|].
    injection H as <-. destruct (i_mark _ I m0 Ew) as [M1 [M2 [q M3]]].
    intros m Hm. unfold len in *. cbn [lens queue wire] in *. rewrite M3. cbn [tl].
    destruct (J m Hm) as [X|X]; [|auto]. rewrite M3 in X. destruct X as [<-|X]; [|auto].
    destruct (i_bytes _ I m0) as [Y|[_ Y]]; unfold len in *; [|auto]. right. left. lia.
  - congruence.
Qed.

Lemma inv3_run : forall es s s', inv s -> inv3 s -> ~ In Clear es -> run s es = Some s' -> inv3 s'.
Proof.
  induction es as [|e es IH]; intros s s' I J C H; cbn in H.
  - injection H as <-. exact J.
  - destruct (step s e) as [s1|] eqn:E; [|discriminate].
    apply (IH s1).
    + eapply inv_step; eassumption.
    + eapply inv3_step; try eassumption. intros ->. apply C. left. reflexivity.
    + intros X. apply C. right. exact X.
    + exact H.
Qed.

Lemma run_app : forall es fs s,
  run s (es ++ fs) = match run s es with Some s' => run s' fs | None => None end.
Proof.
  induction es as [|e es IH]; intros fs s; cbn; [reflexivity|].
  destruct (step s e); auto.
Qed.

Lemma locked_same : forall s s', lens s' = lens s -> waiter s' = waiter s -> locked s' = locked s.
Proof. intros s s' L W. unfold locked. rewrite L, W. reflexivity. Qed.

(** The client thread alone empties the queue. *)
Lemma drains : forall k s, length (queue s) = k -> writer s = Idle -> locked s = false ->
  exists es s', run s es = Some s' /\ Forall by_client es /\ queue s' = [].
Proof.
  induction k as [|k IH]; intros s Hk Hw Hl.
  - exists [], s. split; [reflexivity|]. split; [constructor|]. destruct (queue s); [reflexivity|discriminate].
  - destruct (queue s) as [|m q] eqn:Eq; [discriminate|]. cbn in Hk. injection Hk as Hk.
    assert (G : forall t, queue t = m :: q -> writer t = Idle -> locked t = false ->
                len t m <= bytes t m ->
                exists es s', run t es = Some s' /\ Forall by_client es /\ queue s' = []).
    { intros t Tq Tw Tl Tb.
      set (t1 := {| lens := lens t; queue := queue t; bytes := bytes t;
                    sent := upd (sent t) m true; waiter := waiter t; writer := Marked m;
                    to_notify := to_notify t; wire := wire t |}).
      set (t2 := {| lens := lens t; queue := q; bytes := bytes t;
                    sent := upd (sent t) m true; waiter := waiter t; writer := Idle;
                    to_notify := S (to_notify t); wire := wire t |}).
      assert (R1 : step t Mark = Some t1).
      { unfold step. rewrite Tw, Tq. apply Nat.leb_le in Tb. rewrite Tb. unfold t1. rewrite Tq. reflexivity. }
      assert (R2 : step t1 Pop = Some t2).
      { unfold step. cbn [writer t1]. rewrite (locked_same t t1) by reflexivity. rewrite Tl.
        unfold t1, t2. cbn. rewrite Tq. reflexivity. }
      destruct (IH t2 Hk eq_refl) as [es [s' [R [F Q]]]].
      { rewrite (locked_same t t2) by reflexivity. exact Tl. }
      exists (Mark :: Pop :: es), s'. split; [cbn [run]; rewrite R1, R2; exact R|].
      split; [|exact Q]. constructor; [unfold by_client; auto|]. constructor; [unfold by_client; auto|exact F]. }
    destruct (le_lt_dec (len s m) (bytes s m)) as [D|D].
    + apply G; assumption.
    + set (t := {| lens := lens s; queue := queue s; bytes := upd (bytes s) m (len s m);
                   sent := sent s; waiter := waiter s; writer := Idle;
                   to_notify := to_notify s; wire := wire s ++ [(m, len s m)] |}).
      assert (R0 : step s (Write Full) = Some t).
      { unfold step. rewrite Hw, Eq. destruct (Nat.leb_spec (len s m) (bytes s m)) as [X|X]; [lia|].
        unfold t. rewrite Eq. reflexivity. }
      destruct (G t) as [es [s' [R [F Q]]]].
      * unfold t. cbn. exact Eq.
      * reflexivity.
      * rewrite (locked_same s t) by reflexivity. exact Hl.
      * unfold t, len. cbn. rewrite upd_same. apply le_n.
      * exists (Write Full :: es), s'. split; [cbn [run]; rewrite R0; exact R|].
        split; [|exact Q]. constructor; [unfold by_client; auto | exact F].
Qed.

Lemma client_no_clear : forall es, Forall by_client es -> ~ In Clear es /\ messages es = [].
Proof.
  induction es as [|e es IH]; intros F; [cbn; auto|].
  apply Forall_cons_iff in F. destruct F as [F1 F2]. destruct (IH F2) as [I1 I2].
  destruct F1 as [-> | [-> | ->]]; cbn; (split; [intros [X|X]; [discriminate|auto] | exact I2]).
Qed.

Lemma result_known : forall s e s' m ok,
  step s e = Some s' -> (forall b, waiter s m <> Returned b) -> waiter s' m = Returned ok ->
  ok = sent s m.
Proof.
  intros s e s' m ok H N W. destruct e as [n|a|a|a|w|r| | |]; cbn [step] in H.
  - destruct (locked s); [discriminate|]. injection H as <-. cbn in W.
    destruct (Nat.eq_dec m (length (lens s))) as [->|D].
    + rewrite upd_same in W. discriminate.
    + rewrite upd_other in W by exact D. elim (N _ W).
  - assert (X : s' = set_waiter s a (if sent s a then Returned true else Decided)).
    { destruct (waiter s a); try discriminate; destruct (locked s); try discriminate; congruence. }
    subst s'. cbn in W. destruct (Nat.eq_dec m a) as [->|D].
    + rewrite upd_same in W. destruct (sent s a); [congruence|discriminate].
    + rewrite upd_other in W by exact D. elim (N _ W).
  - destruct (waiter s a); try discriminate; injection H as <-; cbn in W.
    destruct (Nat.eq_dec m a) as [->|D].
    + rewrite upd_same in W. discriminate.
    + rewrite upd_other in W by exact D. elim (N _ W).
  - assert (X : s' = set_waiter s a (Returned (sent s a))).
    { destruct (waiter s a); try discriminate; destruct (locked s); try discriminate; congruence. }
    subst s'. cbn in W. destruct (Nat.eq_dec m a) as [->|D].
    + rewrite upd_same in W. congruence.
    + rewrite upd_other in W by exact D. elim (N _ W).
  - destruct (to_notify s); [discriminate|]. destruct w as [a|].
    + destruct (waiter s a); try discriminate; injection H as <-; cbn in W.
      destruct (Nat.eq_dec m a) as [->|D].
      * rewrite upd_same in W. discriminate.
      * rewrite upd_other in W by exact D. elim (N _ W).
    + destruct (someone_asleep s); [discriminate|]. injection H as <-. cbn in W. elim (N _ W).
  - destruct (writer s); [|discriminate]. destruct (queue s) as [|a q]; [discriminate|].
    destruct (len s a <=? bytes s a); [discriminate|].
    destruct r as [|k|]; [| destruct (k <? len s a); [|discriminate] |]; injection H as <-;
      cbn in W; elim (N _ W).
  - destruct (writer s); [|discriminate]. destruct (queue s) as [|a q]; [discriminate|].
    destruct (len s a <=? bytes s a); [|discriminate]. injection H as <-; cbn in W; elim (N _ W).
  - destruct (writer s); [discriminate|]. destruct (locked s); [discriminate|].
    injection H as <-; cbn in W; elim (N _ W).
  - destruct (writer s); [|discriminate]. destruct (locked s); [discriminate|].
    injection H as <-; cbn in W; elim (N _ W).
Qed.
