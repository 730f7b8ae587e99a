From Coq Require Import List Arith Lia Bool.
From Verif Require Import RxModel RxSpec.
Import ListNotations.

(** What the client thread pushes, given what is in the buffer; and the buffer after it. *)
Fixpoint pushed (b : bytes) (es : list event) : list bytes :=
  match es with
  | [] => []
  | Chunk d r :: es' => if r <=? 0 then (b ++ d) :: pushed [] es' else pushed (b ++ d) es'
  | Clear :: es' => pushed [] es'
  | _ :: es' => pushed b es'
  end.
Fixpoint after (b : bytes) (es : list event) : bytes :=
  match es with
  | [] => b
  | Chunk d r :: es' => if r <=? 0 then after [] es' else after (b ++ d) es'
  | Clear :: es' => after [] es'
  | _ :: es' => after b es'
  end.

Lemma pushed_client : forall es b, pushed b (client es) = pushed b es.
Proof.
  induction es as [|[d r| | |] es IH]; intros b; cbn; try reflexivity; rewrite ?IH; try reflexivity.
Qed.

Lemma pushed_app : forall es fs b, pushed b (es ++ fs) = pushed b es ++ pushed (after b es) fs.
Proof.
  induction es as [|[d r| | |] es IH]; intros fs b; cbn; auto.
  destruct (r <=? 0); cbn; rewrite IH; reflexivity.
Qed.

Lemma after_app : forall es fs b, after b (es ++ fs) = after (after b es) fs.
Proof.
  induction es as [|[d r| | |] es IH]; intros fs b; cbn; auto.
  destruct (r <=? 0); auto.
Qed.

(** Without a clear nothing is lost. *)
Lemma run_exact : forall es s s', ~ In Clear es -> run s es = Next s' ->
  delivered s' ++ rqueue s' = delivered s ++ rqueue s ++ pushed (buffer s) es.
Proof.
  induction es as [|e es IH]; intros s s' N H; cbn in H.
  - injection H as <-. cbn. rewrite app_nil_r. reflexivity.
  - assert (N' : ~ In Clear es) by (intros X; apply N; right; exact X).
    destruct e as [d r| | |]; cbn [step] in H.
    + cbn [pushed]. destruct (r <=? 0); rewrite (IH _ _ N' H); cbn [delivered rqueue buffer];
        rewrite <- ?app_assoc; reflexivity.
    + elim N. left. reflexivity.
    + destruct (at_ s); [|discriminate H]. destruct (rqueue s) eqn:Q; rewrite (IH _ _ N' H); cbn; rewrite ?Q; reflexivity.
    + destruct (at_ s); [discriminate H|]. destruct (rqueue s) as [|m q] eqn:Q; [discriminate H|].
      rewrite (IH _ _ N' H). cbn. rewrite <- app_assoc. reflexivity.
Qed.

Lemma run_defined : forall es s, ~ In Clear es -> (at_ s = Found -> rqueue s <> []) -> run s es <> Undefined.
Proof.
  induction es as [|e es IH]; intros s N J; cbn; [discriminate|].
  assert (N' : ~ In Clear es) by (intros X; apply N; right; exact X).
  destruct e as [d r| | |]; cbn [step].
  - destruct (r <=? 0); apply IH; auto. cbn. intros _ X. destruct (rqueue s); discriminate X.
  - elim N. left. reflexivity.
  - destruct (at_ s) eqn:A; [|discriminate]. destruct (rqueue s) eqn:Q; apply IH; auto.
    + rewrite A. discriminate.
    + cbn. discriminate.
  - destruct (at_ s) eqn:A; [discriminate|]. destruct (rqueue s) as [|m q] eqn:Q; [elim J; auto|].
    apply IH; auto. cbn. discriminate.
Qed.

Lemma some_refl : forall {A} (l : list A), some_of l l.
Proof. induction l; constructor; auto. Qed.
Lemma some_none : forall {A} (l : list A), some_of [] l.
Proof. induction l; constructor; auto. Qed.
Lemma some_trans : forall {A} (b c : list A), some_of b c -> forall a, some_of a b -> some_of a c.
Proof.
  intros A b c H. induction H; intros l K.
  - exact K.
  - inversion K; subst; constructor; auto.
  - constructor. auto.
Qed.
Lemma some_app : forall {A} (a b : list A), some_of a b -> forall c d, some_of c d -> some_of (a ++ c) (b ++ d).
Proof. intros A a b H. induction H; intros c d K; cbn; [exact K|constructor; auto|constructor; auto]. Qed.

Lemma run_some : forall es s s', run s es = Next s' ->
  some_of (delivered s' ++ rqueue s') (delivered s ++ rqueue s ++ pushed (buffer s) es).
Proof.
  induction es as [|e es IH]; intros s s' H; cbn in H.
  - injection H as <-. cbn. rewrite app_nil_r. apply some_refl.
  - destruct e as [d r| | |]; cbn [step] in H.
    + cbn [pushed]. destruct (r <=? 0); pose proof (IH _ _ H) as X; cbn [delivered rqueue buffer] in X;
        rewrite <- ?app_assoc in X; exact X.
    + pose proof (IH _ _ H) as X. cbn [delivered rqueue buffer] in X. cbn [pushed].
      eapply some_trans; [|exact X]. apply some_app; [apply some_refl|].
      apply (some_app [] (rqueue s) (some_none _)). apply some_refl.
    + cbn [pushed]. destruct (at_ s); [|discriminate H].
      destruct (rqueue s) eqn:Q; pose proof (IH _ _ H) as X; cbn in X; rewrite ?Q in X; exact X.
    + cbn [pushed]. destruct (at_ s); [discriminate H|]. destruct (rqueue s) as [|m q] eqn:Q; [discriminate H|].
      pose proof (IH _ _ H) as X. cbn in X. rewrite <- app_assoc in X. exact X.
Qed.

(** A frame is pushed when its last piece came, and not before. *)
Lemma concat_nonempty : forall (f : frame), f <> [] -> Forall (fun d => d <> []) f -> length (concat f) <> 0.
Proof.
  intros [|d f] N F; [congruence|]. apply Forall_cons_iff in F. destruct F as [F _].
  cbn. rewrite app_length. destruct d; [congruence|cbn; lia].
Qed.

Lemma frame_full : forall f b, f <> [] -> (length f = 1 \/ Forall (fun d => d <> []) f) ->
  pushed b (arrives f) = [b ++ concat f] /\ after b (arrives f) = [].
Proof.
  induction f as [|d f IH]; intros b N F; [congruence|].
  cbn [arrives pushed after]. destruct f as [|d2 f].
  - cbn. rewrite app_nil_r. auto.
  - assert (G : Forall (fun d => d <> []) (d2 :: f)).
    { destruct F as [F|F]; [discriminate F|]. apply Forall_cons_iff in F. tauto. }
    destruct (Nat.leb_spec (length (concat (d2 :: f))) 0) as [X|X].
    + elim (concat_nonempty (d2 :: f)); [discriminate|exact G|lia].
    + destruct (IH (b ++ d)) as [I1 I2]; [discriminate|right; exact G|].
      rewrite I1, I2. cbn [concat]. rewrite <- !app_assoc. auto.
Qed.

Lemma frame_torn : forall t r b, r <> [] -> (length (t ++ r) = 1 \/ Forall (fun d => d <> []) (t ++ r)) ->
  pushed b (firstn (length t) (arrives (t ++ r))) = [].
Proof.
  induction t as [|d t IH]; intros r b N F; [reflexivity|].
  cbn [app arrives length firstn pushed].
  assert (G : Forall (fun d => d <> []) (t ++ r)).
  { destruct F as [F|F].
    - cbn in F. rewrite app_length in F. destruct r; [congruence|cbn in F; lia].
    - cbn in F. apply Forall_cons_iff in F. tauto. }
  destruct (Nat.leb_spec (length (concat (t ++ r))) 0) as [X|X].
  - elim (concat_nonempty (t ++ r)); [|exact G|lia]. destruct t; [exact N|discriminate].
  - apply IH; [exact N|right; exact G].
Qed.

Lemma messages_full : forall ms, Forall in_one_frame ms ->
  pushed [] (flat_map message_arrives ms) = map content ms /\ after [] (flat_map message_arrives ms) = [].
Proof.
  induction ms as [|m ms IH]; intros F; [auto|].
  apply Forall_cons_iff in F. destruct F as [[f [-> [N P]]] F]. destruct (IH F) as [I1 I2].
  assert (A : message_arrives [f] = arrives f) by (unfold message_arrives; cbn [flat_map]; apply app_nil_r).
  cbn [flat_map map]. rewrite A. destruct (frame_full f [] N P) as [E1 E2].
  rewrite pushed_app, after_app, E1, E2, I1, I2. unfold content. cbn [concat app]. rewrite app_nil_r. auto.
Qed.

Lemma connection_full : forall c, plausible c ->
  pushed [] (connection_arrives c) = map content (whole c) /\ after [] (connection_arrives c) = [].
Proof.
  intros [ms t r] [F T]. cbn [whole torn rest] in *. unfold connection_arrives. cbn [whole torn rest].
  destruct (messages_full ms F) as [E1 E2].
  rewrite pushed_app, E1, E2, pushed_app, after_app, E2, after_app. cbn [pushed after]. split; [|reflexivity].
  destruct T as [->|[N [_ P]]].
  - cbn. rewrite app_nil_r. reflexivity.
  - rewrite frame_torn by assumption. rewrite app_nil_r. reflexivity.
Qed.

Lemma connections_full : forall cs, Forall plausible cs ->
  pushed [] (flat_map connection_arrives cs) = map content (flat_map whole cs).
Proof.
  induction cs as [|c cs IH]; intros F; [reflexivity|].
  apply Forall_cons_iff in F. destruct F as [F1 F2]. destruct (connection_full c F1) as [E1 E2].
  cbn [flat_map]. rewrite pushed_app, E1, E2, (IH F2), map_app. reflexivity.
Qed.

Lemma empties : forall q s, rqueue s = q -> at_ s = Looking ->
  exists k, run s (concat (repeat [Look; Take] k)) =
    Next {| buffer := buffer s; rqueue := []; at_ := Looking; delivered := delivered s ++ q |}.
Proof.
  induction q as [|m q IH]; intros s Q A.
  - exists 0. destruct s. cbn in *. subst. rewrite app_nil_r. reflexivity.
  - destruct (IH {| buffer := buffer s; rqueue := q; at_ := Looking; delivered := delivered s ++ [m] |}) as [k E];
      [reflexivity|reflexivity|].
    exists (S k). cbn [repeat concat app run step]. rewrite A, Q. cbn [run step at_ rqueue buffer delivered].
    rewrite ?Q. rewrite E. cbn. rewrite <- app_assoc. reflexivity.
Qed.

Lemma frames_full : forall fs, Forall proper fs ->
  pushed [] (flat_map arrives fs) = map (@concat nat) fs /\ after [] (flat_map arrives fs) = [].
Proof.
  induction fs as [|f fs IH]; intros F; [auto|].
  apply Forall_cons_iff in F. destruct F as [[N P] F]. destruct (IH F) as [I1 I2].
  cbn [flat_map map]. destruct (frame_full f [] N P) as [E1 E2].
  rewrite pushed_app, after_app, E1, E2, I1, I2. auto.
Qed.

Lemma all_frames : forall ms, flat_map message_arrives ms = flat_map arrives (concat ms).
Proof.
  induction ms as [|m ms IH]; [reflexivity|]. cbn [flat_map concat]. rewrite IH, flat_map_app. reflexivity.
Qed.
