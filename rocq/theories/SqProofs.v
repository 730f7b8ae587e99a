(** Proofs about the deferred callbacks (SqModel, SqSpec). *)

From Coq Require Import List Bool ZArith Lia.
From Verif Require Import SqModel SqSpec.
Import ListNotations.

Lemma run_app : forall es fs s,
  run s (es ++ fs) = match run s es with Some s' => run s' fs | None => None end.
Proof.
  induction es as [|e es IH]; intros fs s; cbn; [reflexivity|].
  destruct (step s e); auto.
Qed.

Record inv (s : state) : Prop := {
  i_all : pushed s = called s ++ running s ++ queue s;
  i_pop : thread s = Popping -> queue s <> [];
  i_ret : thread s = Returned -> queue s <> [] \/ stop s = true;
  i_ok : thread s <> Undefined;
  i_dec : thread s = Decided -> queue s = [];
  i_sleep : thread s = Asleep -> to_notify s = 0 -> queue s = [];
  i_stop : stop s = true <-> destructor s <> Alive }.

Lemma inv_init : inv init.
Proof. constructor; cbn; intros; try reflexivity; try discriminate. split; congruence. Qed.

Ltac case_step H :=
  repeat match type of H with
  | context [match ?x with _ => _ end] => let E := fresh "E" in destruct x eqn:E; try discriminate H
  end.

Lemma app_not_nil : forall (l : list callback) c, l ++ [c] <> [].
Proof. intros [|x l] c; discriminate. Qed.

Lemma inv_step : forall s e s', inv s -> step s e = Some s' -> inv s'.
Proof.
  intros s e s' [Ia Ip Ir Io Id Is It] H.
  destruct s as [q p st d n ps cl]. unfold running in Ia. cbn in Ia, Ip, Ir, Io, Id, Is, It.
  destruct e; cbn in H.
  - (* push *)
    unfold locked in H. cbn in H.
    destruct p; try discriminate H; injection H as <-; constructor; unfold running; cbn;
      intros; try discriminate; try apply app_not_nil; try (left; apply app_not_nil);
      try assumption; try (rewrite Ia; cbn; rewrite <- ?app_assoc; reflexivity); try congruence.
  - (* notify *)
    destruct n as [|n]; [discriminate|]. injection H as <-. unfold notify_one. cbn.
    destruct p; constructor; unfold running; cbn; intros; try discriminate; try assumption;
      try (apply Ip; assumption); try (apply Ir; assumption); try (apply Id; assumption); try congruence.
  - (* store *)
    destruct d; try discriminate H. injection H as <-.
    constructor; unfold running; cbn; intros; auto.
    split; [discriminate|reflexivity].
  - (* stop notify *)
    destruct d; try discriminate H. injection H as <-. unfold notify_one. cbn.
    assert (X : st = true <-> Joining <> Alive) by (rewrite It; split; discriminate).
    destruct p; constructor; unfold running; cbn; intros; try discriminate; auto.
  - (* join *)
    destruct d; try discriminate H. destruct p; try discriminate H. injection H as <-.
    constructor; unfold running; cbn; intros; auto; try discriminate.
    rewrite It. split; discriminate.
  - (* spurious *)
    destruct p; try discriminate H. injection H as <-.
    constructor; unfold running; cbn; intros; try discriminate; auto.
  - (* thread *)
    unfold thread_step in H. cbn in H.
    destruct p; try discriminate H.
    + injection H as <-. unfold test, predicate. cbn.
      destruct q as [|c q]; cbn; [destruct st|]; constructor; unfold running; cbn; intros;
        try discriminate; auto; try (left; discriminate).
    + injection H as <-. constructor; unfold running; cbn; intros; try discriminate; auto.
    + injection H as <-. unfold test, predicate. cbn.
      destruct q as [|c q]; cbn; [destruct st|]; constructor; unfold running; cbn; intros;
        try discriminate; auto; try (left; discriminate).
    + destruct (Ir eq_refl) as [N| ->].
      * destruct q as [|c q]; [congruence|]. rewrite andb_false_r in H. injection H as <-.
        constructor; unfold running; cbn; intros; try discriminate; auto.
      * destruct q as [|c q]; cbn in H; injection H as <-;
          constructor; unfold running; cbn; intros; try discriminate; auto.
    + destruct q as [|c q]; [elim (Ip eq_refl eq_refl)|]. injection H as <-.
      constructor; unfold running; cbn; intros; try discriminate; auto.
    + injection H as <-. constructor; unfold running; cbn; intros; try discriminate; auto.
      rewrite Ia. cbn. rewrite <- app_assoc. reflexivity.
Qed.

Lemma inv_run : forall es s s', inv s -> run s es = Some s' -> inv s'.
Proof.
  induction es as [|e es IH]; intros s s' I H; cbn in H.
  - injection H as <-. exact I.
  - destruct (step s e) as [s1|] eqn:E; [|discriminate].
    apply (IH s1); [eapply inv_step; eassumption | exact H].
Qed.

Lemma inv_reachable : forall s, reachable s -> inv s.
Proof. intros s [es H]. exact (inv_run _ _ _ inv_init H). Qed.

Lemma pushed_step : forall s e s', step s e = Some s' ->
  pushed s' = pushed s ++ handed [e].
Proof.
  intros [q p st d n ps cl] e s' H. destruct e; cbn in H |- *; rewrite ?app_nil_r.
  - unfold locked in H. destruct p; cbn in H; try discriminate; injection H as <-; reflexivity.
  - destruct n; [discriminate|]. injection H as <-. unfold notify_one; destruct p; reflexivity.
  - destruct d; try discriminate; injection H as <-; reflexivity.
  - destruct d; try discriminate; injection H as <-. unfold notify_one; destruct p; reflexivity.
  - destruct d; try discriminate; destruct p; try discriminate; injection H as <-; reflexivity.
  - destruct p; try discriminate; injection H as <-; reflexivity.
  - unfold thread_step in H. cbn in H. destruct p; try discriminate;
      unfold test, predicate in H; cbn in H; case_step H; injection H as <-; reflexivity.
Qed.

Lemma handed_cons : forall e es, handed (e :: es) = handed [e] ++ handed es.
Proof. intros [] es; reflexivity. Qed.

Lemma pushed_run : forall es s s', run s es = Some s' -> pushed s' = pushed s ++ handed es.
Proof.
  induction es as [|e es IH]; intros s s' H; cbn [run] in H.
  - injection H as <-. cbn. rewrite app_nil_r. reflexivity.
  - destruct (step s e) as [s1|] eqn:E; [|discriminate].
    rewrite (IH _ _ H), (pushed_step _ _ _ E), (handed_cons e es), app_assoc. reflexivity.
Qed.

Lemma in_order : forall es s, run init es = Some s ->
  handed es = called s ++ running s ++ queue s.
Proof.
  intros es s H. rewrite <- (i_all _ (inv_run _ _ _ inv_init H)).
  rewrite (pushed_run _ _ _ H). reflexivity.
Qed.

(** Only the thread can leave the loop, and only with nothing left. *)
Lemma ends_empty : forall s e s', inv s -> step s e = Some s' ->
  thread s <> Ended -> thread s' = Ended -> queue s' = [] /\ stop s' = true.
Proof.
  intros s e s' I H N E. destruct s as [q p st d n ps cl]. cbn in N.
  destruct e; cbn in H.
  - unfold locked in H. destruct p; cbn in H; try discriminate; injection H as <-; cbn in E; congruence.
  - destruct n; [discriminate|]. injection H as <-. unfold notify_one in E.
    destruct p; cbn in E; congruence.
  - destruct d; try discriminate; injection H as <-; cbn in E; congruence.
  - destruct d; try discriminate; injection H as <-. unfold notify_one in E.
    destruct p; cbn in E; congruence.
  - destruct d; try discriminate; destruct p; try discriminate. congruence.
  - destruct p; try discriminate; injection H as <-; discriminate.
  - unfold thread_step in H. cbn in H. destruct p; try discriminate.
    + injection H as <-. unfold test in E. destruct (predicate _); discriminate.
    + injection H as <-. discriminate.
    + injection H as <-. unfold test in E. destruct (predicate _); discriminate.
    + destruct st, q; cbn in H; injection H as <-; try discriminate. auto.
    + destruct q; injection H as <-; discriminate.
    + injection H as <-. discriminate.
Qed.

(** The thread alone empties the queue, once those that pushed have notified. *)
Definition thread_steps (n : nat) (s : state) : option state := run s (repeat Thread n).

Lemma drain_testing : forall q p st d n ps cl,
  p = Testing \/ p = Woken ->
  exists k s', run {| queue := q; thread := p; stop := st; destructor := d; to_notify := n;
                      pushed := ps; called := cl |} (repeat Thread k) = Some s' /\
               queue s' = [] /\ called s' = cl ++ q /\ pushed s' = ps /\ (thread s' = Testing \/ thread s' = Woken).
Proof.
  induction q as [|c q IH]; intros p st d n ps cl Hp.
  - exists 0. eexists. split; [reflexivity|]. cbn. rewrite app_nil_r. auto.
  - destruct (IH Testing st d n ps (cl ++ [c]) (or_introl eq_refl)) as [k [s' [R [Q [C [P T]]]]]].
    exists (4 + k). exists s'. split; [|split; [exact Q|]; split; [|auto]].
    + cbn [repeat plus run step].
      destruct Hp as [-> | ->]; unfold thread_step at 1; cbn [thread];
        unfold test, predicate; cbn [queue negb orb set_thread stop destructor to_notify pushed called];
        unfold thread_step at 1; cbn [thread queue stop set_thread destructor to_notify pushed called];
        rewrite andb_false_r; cbn [thread_step thread queue set_thread stop destructor to_notify pushed called];
        exact R.
    + rewrite C, <- app_assoc. reflexivity.
Qed.

Lemma drains : forall s, inv s -> to_notify s = 0 -> thread s <> Ended ->
  exists n s', run s (repeat Thread n) = Some s' /\ called s' = pushed s.
Proof.
  intros s [Ia Ip Ir Io Id Is It] Hn He. destruct s as [q p st d n ps cl].
  unfold running in Ia. cbn in *. subst n.
  destruct p; try congruence.
  - destruct (drain_testing q Testing st d 0 ps cl (or_introl eq_refl)) as [k [s' [R [Q [C [P T]]]]]].
    exists k, s'. split; [exact R|]. rewrite C, Ia. reflexivity.
  - exists 0. eexists. split; [reflexivity|]. cbn. rewrite Ia, (Id eq_refl), app_nil_r. reflexivity.
  - exists 0. eexists. split; [reflexivity|]. cbn. rewrite Ia, (Is eq_refl eq_refl), app_nil_r. reflexivity.
  - destruct (drain_testing q Woken st d 0 ps cl (or_intror eq_refl)) as [k [s' [R [Q [C [P T]]]]]].
    exists k, s'. split; [exact R|]. rewrite C, Ia. reflexivity.
  - destruct q as [|c q].
    + exists 0. eexists. split; [reflexivity|]. cbn. rewrite Ia. rewrite app_nil_r. reflexivity.
    + destruct (drain_testing q Testing st d 0 ps (cl ++ [c]) (or_introl eq_refl)) as [k [s' [R [Q [C [P T]]]]]].
      exists (3 + k), s'. split.
      * cbn [repeat plus run step]. unfold thread_step at 1.
        cbn [thread queue stop set_thread destructor to_notify pushed called].
        rewrite andb_false_r. cbn [thread_step thread queue set_thread stop destructor to_notify pushed called].
        exact R.
      * rewrite C, Ia, <- app_assoc. reflexivity.
  - destruct q as [|c q]; [elim (Ip eq_refl eq_refl)|].
    destruct (drain_testing q Testing st d 0 ps (cl ++ [c]) (or_introl eq_refl)) as [k [s' [R [Q [C [P T]]]]]].
    exists (2 + k), s'. split; [exact R|]. rewrite C, Ia, <- app_assoc. reflexivity.
  - destruct (drain_testing q Testing st d 0 ps (cl ++ [c]) (or_introl eq_refl)) as [k [s' [R [Q [C [P T]]]]]].
    exists (1 + k), s'. split; [exact R|]. rewrite C, Ia, <- app_assoc. reflexivity.
Qed.

(** With a careful destructor a sleeping thread that was told to stop is about
    to be notified. *)
Definition inv2 (s : state) : Prop :=
  (thread s = Asleep \/ thread s = Decided) -> stop s = true -> destructor s = Stored.

Lemma inv2_step : forall s e s', inv s -> inv2 s -> (e = StopNotify -> thread s <> Decided) ->
  step s e = Some s' -> inv2 s'.
Proof.
  intros s e s' I J C H. destruct s as [q p st d n ps cl]. unfold inv2 in *. cbn in J, C.
  destruct e; cbn in H.
  - unfold locked in H. destruct p; cbn in H; try discriminate; injection H as <-; cbn; assumption.
  - destruct n; [discriminate|]. injection H as <-. unfold notify_one.
    destruct p; cbn; try assumption; intros [|]; discriminate.
  - destruct d; try discriminate; injection H as <-; cbn; auto.
  - destruct d; try discriminate; injection H as <-. unfold notify_one.
    destruct p; cbn; intros [|]; try discriminate. elim (C eq_refl eq_refl).
  - destruct d; try discriminate; destruct p; try discriminate; injection H as <-; cbn.
    intros [|]; discriminate.
  - destruct p; try discriminate; injection H as <-; cbn. intros [|]; discriminate.
  - unfold thread_step in H. cbn in H. destruct p; try discriminate.
    + injection H as <-. unfold test, predicate. cbn. destruct q, st; cbn; intros [|]; discriminate.
    + injection H as <-. cbn. intros _. apply J. auto.
    + injection H as <-. unfold test, predicate. cbn. destruct q, st; cbn; intros [|]; discriminate.
    + destruct st, q; cbn in H; injection H as <-; cbn; intros [|]; discriminate.
    + destruct q; injection H as <-; cbn; intros [|]; discriminate.
    + injection H as <-. cbn. intros [|]; discriminate.
Qed.

Lemma inv2_run : forall es s s', inv s -> inv2 s -> careful s es -> run s es = Some s' -> inv2 s'.
Proof.
  induction es as [|e es IH]; intros s s' I J C H; cbn in H.
  - injection H as <-. exact J.
  - cbn in C. destruct C as [C1 C2]. destruct (step s e) as [s1|] eqn:E; [|discriminate].
    apply (IH s1); auto; [eapply inv_step | eapply inv2_step]; eassumption.
Qed.

Lemma ends : forall q p st d n ps cl, st = true -> (p = Testing \/ p = Woken) -> q = [] ->
  exists s', run {| queue := q; thread := p; stop := st; destructor := d; to_notify := n;
                    pushed := ps; called := cl |} [Thread; Thread] = Some s' /\
             thread s' = Ended /\ destructor s' = d /\ queue s' = [] /\ called s' = cl.
Proof.
  intros q p st d n ps cl -> [-> | ->] ->; eexists; (split; [reflexivity|]); cbn; auto.
Qed.

Lemma run_to_end : forall s, inv s -> thread s <> Asleep -> thread s <> Decided ->
  stop s = true -> thread s <> Ended ->
  exists n s', run s (repeat Thread n) = Some s' /\ thread s' = Ended /\
               destructor s' = destructor s /\ called s' = pushed s.
Proof.
  intros s I N1 N2 Hs He.
  assert (D : exists k q' p' n' , run s (repeat Thread k) =
     Some {| queue := q'; thread := p'; stop := true; destructor := destructor s; to_notify := n';
             pushed := pushed s; called := pushed s |} /\
     ((p' = Testing \/ p' = Woken) /\ q' = [] \/ p' = Returned /\ q' = [])).
  { destruct I as [Ia Ip Ir Io Id Is It]. destruct s as [q p st d n ps cl]. unfold running in Ia. cbn in *.
    subst st.
    assert (G : forall q p cl, (p = Testing \/ p = Woken) -> ps = cl ++ q ->
       exists k n' p', run {| queue := q; thread := p; stop := true; destructor := d; to_notify := n;
                    pushed := ps; called := cl |} (repeat Thread k) =
         Some {| queue := []; thread := p'; stop := true; destructor := d; to_notify := n';
                 pushed := ps; called := ps |} /\ (p' = Testing \/ p' = Woken)).
    { clear. induction q as [|c q IH]; intros p cl Hp E.
      - rewrite app_nil_r in E. subst cl. exists 0, n, p. split; [reflexivity|exact Hp].
      - destruct (IH Testing (cl ++ [c]) (or_introl eq_refl)) as [k [n' [p' [R P]]]].
        { rewrite <- app_assoc. exact E. }
        exists (4 + k), n', p'. split; [|exact P].
        destruct Hp as [-> | ->]; exact R. }
    destruct p; try congruence.
    - destruct (G q Testing cl (or_introl eq_refl) Ia) as [k [n' [p' [R P]]]].
      exists k, [], p', n'. split; [exact R|]. left. auto.
    - destruct (G q Woken cl (or_intror eq_refl) Ia) as [k [n' [p' [R P]]]].
      exists k, [], p', n'. split; [exact R|]. left. auto.
    - destruct q as [|c q].
      + exists 0, [], Returned, n. split; [|right; auto]. cbn in Ia. rewrite app_nil_r in Ia.
        subst cl. reflexivity.
      + destruct (G q Testing (cl ++ [c]) (or_introl eq_refl)) as [k [n' [p' [R P]]]].
        { rewrite <- app_assoc. exact Ia. }
        exists (3 + k), [], p', n'. split; [exact R|]. left. auto.
    - destruct q as [|c q]; [elim (Ip eq_refl eq_refl)|].
      destruct (G q Testing (cl ++ [c]) (or_introl eq_refl)) as [k [n' [p' [R P]]]].
      { rewrite <- app_assoc. exact Ia. }
      exists (2 + k), [], p', n'. split; [exact R|]. left. auto.
    - destruct (G q Testing (cl ++ [c]) (or_introl eq_refl)) as [k [n' [p' [R P]]]].
      { rewrite <- app_assoc. exact Ia. }
      exists (1 + k), [], p', n'. split; [exact R|]. left. auto. }
  destruct D as [k [q' [p' [n' [R [[Hp ->]|[-> ->]]]]]]].
  - destruct (ends [] p' true (destructor s) n' (pushed s) (pushed s) eq_refl Hp eq_refl) as [s' [R' [T [D [Q C]]]]].
    exists (k + 2), s'. rewrite repeat_app, run_app, R. auto.
  - exists (k + 1). eexists. rewrite repeat_app, run_app, R. split; [reflexivity|]. cbn. auto.
Qed.
