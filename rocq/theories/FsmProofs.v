From Coq Require Import String List ZArith Bool Lia.
From Verif Require Import FsmModel FsmSpec.
Import ListNotations.
Open Scope Z_scope.

(** ** Table *)

Lemma table s e t : find_transition s e = Some t <-> applicable s e /\ t = target e.
Proof.
  unfold applicable, return_event. split.
  - intros H. destruct s, e; vm_compute in H; try discriminate; inversion H; subst; cbn;
      (split; [|reflexivity]); (split; [intuition (try lia)|]); (split; [|intros C; try discriminate C; reflexivity]);
      split; intros C; try discriminate C; try (intuition discriminate); try reflexivity; tauto.
  - intros [(A & B & C) ->]. destruct s, e; try reflexivity; exfalso;
      try (specialize (C eq_refl); discriminate C);
      try (cbn in A; intuition discriminate);
      try (assert (X : Faulted = Faulted) by reflexivity; apply B in X; cbn in X; intuition discriminate);
      (assert (X : forall P : Prop, P) by (
         match type of B with ?P <-> ?Q => assert (HQ : Q) by (apply B; cbn; tauto); discriminate HQ end); apply X).
Qed.

Lemma applicable_dec s e : {applicable s e} + {~ applicable s e}.
Proof.
  destruct (find_transition s e) as [t|] eqn:E.
  - left. apply table in E. apply E.
  - right. intros A. assert (X : find_transition s e = Some (target e)) by (apply table; auto). congruence.
Qed.

(** ** One machine *)

Definition fsm_step (f : fsm) (o : op) : fsm * list note :=
  match o with
  | Event _ e ts info => handle_event f e ts info
  | Error _ e => handle_error f e
  | Cleared _ u now => handle_error_cleared f u now
  | AllCleared _ now => handle_all_errors_cleared f now
  | _ => (f, [])
  end.
Definition machine (s : states) (c : Z) : option fsm :=
  if c =? 0 then zero s else if 0 <? c then nth_error (machines s) (Z.to_nat (c - 1)) else None.

Lemma nth_set_nth {A} (x : A) : forall l i j, nth_error (set_nth i x l) j = if (Nat.eqb i j && Nat.ltb j (length l))%bool then Some x else nth_error l j.
Proof.
  induction l as [|y l IH]; intros [|i] [|j]; cbn; try reflexivity.
  - now rewrite andb_false_r.
  - rewrite IH. reflexivity.
Qed.
Lemma set_nth_length {A} (x : A) : forall l i, length (set_nth i x l) = length l.
Proof. induction l as [|y l IH]; intros [|i]; cbn; congruence. Qed.

Definition valid (s : states) (c : Z) : Prop := zero s <> None /\ 0 <= c <= Z.of_nat (length (machines s)).

Lemma valid_machine s c : valid s c -> exists f, machine s c = Some f.
Proof.
  intros [Z0 B]. unfold machine. destruct (Z.eqb_spec c 0).
  - destruct (zero s); [eauto|congruence].
  - replace (0 <? c) with true by (symmetry; apply Z.ltb_lt; lia).
    destruct (nth_error (machines s) (Z.to_nat (c - 1))) eqn:E; [eauto|]. apply nth_error_None in E. lia.
Qed.

Lemma submit_eff s c h d : valid s d ->
  let s' := fst (submit s c h) in
  valid s' d /\ length (machines s') = length (machines s) /\
  machine s' d = (if c =? d then option_map (fun f => fst (h f)) (machine s d) else machine s d) /\
  notes d (snd (submit s c h)) = (if c =? d then match machine s d with Some f => snd (h f) | None => [] end else []).
Proof.
  assert (T : forall c d l, notes d (tag c l) = if c =? d then l else []).
  { intros c' d' l. induction l as [|x l IH]; cbn; [destruct (c' =? d'); reflexivity|].
    change (notes d' (tag c' l)) with (notes d' (map (Notify c') l)) in IH. unfold notes in *. rewrite IH. destruct (c' =? d'); reflexivity. }
  intros [Z0 B]. unfold submit. destruct (Z.eqb_spec c 0) as [->|C0].
  - destruct (zero s) as [f|] eqn:E; [|congruence]. cbn [fst snd]. split; [split; cbn; [discriminate|exact B]|]. split; [reflexivity|].
    rewrite T. unfold machine. cbn [zero machines]. destruct (Z.eqb_spec 0 d) as [<-|D0]; cbn.
    + rewrite E. auto.
    + destruct (Z.eqb_spec d 0); [congruence|auto].
  - destruct ((0 <? c) && (c <=? Z.of_nat (length (machines s)))) eqn:R.
    + apply andb_prop in R. destruct R as [R1 R2]. apply Z.ltb_lt in R1. apply Z.leb_le in R2.
      destruct (nth_error (machines s) (Z.to_nat (c - 1))) as [f|] eqn:E.
      * cbn [fst snd]. split; [split; cbn; [exact Z0|rewrite set_nth_length; exact B]|]. split; [cbn; apply set_nth_length|].
        rewrite T. unfold machine. cbn [zero machines]. destruct (Z.eqb_spec d 0) as [->|D0].
        { destruct (Z.eqb_spec c 0); [lia|auto]. }
        replace (0 <? d) with true by (symmetry; apply Z.ltb_lt; lia). rewrite nth_set_nth.
        destruct (Z.eqb_spec c d) as [<-|CD].
        { rewrite Nat.eqb_refl, E. replace (Nat.ltb (Z.to_nat (c - 1)) (length (machines s))) with true by (symmetry; apply Nat.ltb_lt; lia). auto. }
        { replace (Nat.eqb (Z.to_nat (c - 1)) (Z.to_nat (d - 1))) with false by (symmetry; apply Nat.eqb_neq; lia). auto. }
      * apply nth_error_None in E. lia.
    + cbn [fst snd]. split; [split; assumption|]. split; [reflexivity|].
      destruct (Z.eqb_spec c d) as [<-|CD]; [|auto].
      apply andb_false_iff in R. rewrite Z.ltb_ge, Z.leb_gt in R. lia.
Qed.

Lemma step_eff s o c : valid s c -> (forall m, o <> Reset m) ->
  valid (fst (step s o)) c /\ length (machines (fst (step s o))) = length (machines s) /\
  machine (fst (step s o)) c = (if concerns c o then option_map (fun f => fst (fsm_step f o)) (machine s c) else machine s c) /\
  (concerns c o = true -> notes c (snd (step s o)) = match machine s c with Some f => snd (fsm_step f o) | None => [] end).
Proof.
  intros V NR. destruct o; cbn [step concerns].
  - exfalso. eapply NR. reflexivity.
  - pose proof (submit_eff s c0 (fun f => handle_event f e ts info) c V) as (A & L & B & C). rewrite B, C. repeat (split; auto). intros ->. reflexivity.
  - pose proof (submit_eff s c0 (fun f => handle_error f e) c V) as (A & L & B & C). rewrite B, C. repeat (split; auto). intros ->. reflexivity.
  - pose proof (submit_eff s c0 (fun f => handle_error_cleared f uuid now) c V) as (A & L & B & C). rewrite B, C. repeat (split; auto). intros ->. reflexivity.
  - pose proof (submit_eff s c0 (fun f => handle_all_errors_cleared f now) c V) as (A & L & B & C). rewrite B, C. repeat (split; auto). intros ->. reflexivity.
  - cbn. repeat (split; auto). discriminate.
  - cbn. repeat (split; auto). discriminate.
Qed.

Lemma step_unconcerned s o c : valid s c -> (forall m, o <> Reset m) -> concerns c o = false ->
  forall k, machine s c = Some k -> told (fsm_get_state k) (notes c (snd (step s o))) = fsm_get_state k.
Proof.
  intros V NR H k M.
  assert (T : forall c d l, notes d (tag c l) = if c =? d then l else []).
  { intros c' d' l. induction l as [|x l IH]; cbn; [destruct (c' =? d'); reflexivity|].
    change (notes d' (tag c' l)) with (notes d' (map (Notify c') l)) in IH. unfold notes in *. rewrite IH. destruct (c' =? d'); reflexivity. }
  destruct o; cbn [concerns] in H; cbn [step snd].
  - exfalso. eapply NR. reflexivity.
  - pose proof (submit_eff s c0 (fun f => handle_event f e ts info) c V) as (A & L & B & C). rewrite C, H. reflexivity.
  - pose proof (submit_eff s c0 (fun f => handle_error f e) c V) as (A & L & B & C). rewrite C, H. reflexivity.
  - pose proof (submit_eff s c0 (fun f => handle_error_cleared f uuid now) c V) as (A & L & B & C). rewrite C, H. reflexivity.
  - pose proof (submit_eff s c0 (fun f => handle_all_errors_cleared f now) c V) as (A & L & B & C). rewrite C, H. reflexivity.
  - unfold trigger_one. destruct (Z.eqb_spec c0 0) as [->|C0].
    + destruct (zero s) as [f|] eqn:E; [|destruct V; congruence]. rewrite T. destruct (Z.eqb_spec 0 c) as [<-|]; [|reflexivity].
      unfold machine in M. cbn in M. rewrite E in M. inversion M; subst. reflexivity.
    + destruct (c0 <? 0) eqn:N; [reflexivity|]. apply Z.ltb_ge in N. destruct (nth_error (machines s) (Z.to_nat (c0 - 1))) as [f|] eqn:E; [|reflexivity].
      rewrite T. destruct (Z.eqb_spec c0 c) as [<-|]; [|reflexivity]. unfold machine in M.
      destruct (Z.eqb_spec c0 0); [lia|]. replace (0 <? c0) with true in M by (symmetry; apply Z.ltb_lt; lia). rewrite E in M. inversion M; subst. reflexivity.
  - unfold trigger_all. destruct (zero s) as [f|] eqn:E; [|destruct V; congruence].
    assert (TL : forall l b, notes c (trigger_list b l now) =
        if b <=? c then match nth_error l (Z.to_nat (c - b)) with Some g => trigger g now | None => [] end else []).
    { induction l as [|g l IH]; intros b; cbn [trigger_list].
      - destruct (b <=? c); [|reflexivity]. destruct (Z.to_nat (c - b)); reflexivity.
      - unfold notes. rewrite flat_map_app. fold (notes c (tag b (trigger g now))). fold (notes c (trigger_list (b + 1) l now)).
        rewrite T, IH. destruct (Z.eqb_spec b c) as [->|NE].
        + replace (c + 1 <=? c) with false by (symmetry; apply Z.leb_gt; lia). rewrite Z.leb_refl, Z.sub_diag. cbn. reflexivity.
        + destruct (Z.leb_spec b c).
          * replace (b + 1 <=? c) with true by (symmetry; apply Z.leb_le; lia).
            replace (Z.to_nat (c - b)) with (S (Z.to_nat (c - (b + 1)))) by lia. reflexivity.
          * replace (b + 1 <=? c) with false by (symmetry; apply Z.leb_gt; lia). reflexivity. }
    unfold notes. rewrite flat_map_app. fold (notes c (tag 0 (trigger f now))). fold (notes c (trigger_list 1 (machines s) now)).
    rewrite T, TL. unfold machine in M. destruct (Z.eqb_spec c 0) as [->|C0].
    + cbn. rewrite E in M. inversion M; subst. reflexivity.
    + replace (0 =? c) with false by (symmetry; apply Z.eqb_neq; lia). cbn [app].
      destruct (Z.ltb_spec 0 c); [|discriminate]. replace (1 <=? c) with true by (symmetry; apply Z.leb_le; lia). rewrite M. reflexivity.
Qed.

(** ** Active errors *)

Definition errs_ok (h : list op) (f : fsm) : Prop :=
  (forall e, In e (f_errors f) <-> active h e) /\ NoDup (map e_uuid (f_errors f)).

Lemma has_error_in f u : has_error f u = true <-> In u (map e_uuid (f_errors f)).
Proof.
  unfold has_error. rewrite existsb_exists, in_map_iff. split.
  - intros (e & I & E). apply String.eqb_eq in E. eauto.
  - intros (e & E & I). exists e. split; [exact I|]. apply String.eqb_eq. exact E.
Qed.

Lemma active_snoc h o e : active (h ++ [o]) e <->
  (active h e /\ ~ clears (e_uuid e) o) \/
  (exists d, o = Error d e /\ forall p1 d' e' p2, h = p1 ++ Error d' e' :: p2 -> e_uuid e' = e_uuid e -> exists x, In x p2 /\ clears (e_uuid e) x).
Proof.
  split.
  - intros (pre & d & post & E & A & B). destruct post as [|y post _] using rev_ind.
    + apply app_inj_tail in E. destruct E as [-> ->]. right. exists d. split; [reflexivity|exact B].
    + rewrite app_comm_cons, app_assoc in E. apply app_inj_tail in E. destruct E as [-> ->]. left. split.
      * exists pre, d, post. split; [reflexivity|]. split; [|exact B]. intros o I. apply A. apply in_app_iff. auto.
      * apply A. apply in_app_iff. right. left. reflexivity.
  - intros [[(pre & d & post & -> & A & B) C]|(d & -> & B)].
    + exists pre, d, (post ++ [o]). rewrite <- app_assoc. split; [reflexivity|]. split; [|exact B].
      intros x I. apply in_app_iff in I. destruct I as [I|[<-|[]]]; auto.
    + exists h, d, []. split; [reflexivity|]. split; [intros ? []|exact B].
Qed.

Lemma clears_dec u o : {clears u o} + {~ clears u o}.
Proof. destruct o; cbn; auto. destruct (string_dec uuid u); auto. Qed.

(** An error with uuid [u] is active iff one was reported and not cleared since. *)
Lemma active_uuid h u : (exists e, active h e /\ e_uuid e = u) <->
  exists p1 d e p2, h = p1 ++ Error d e :: p2 /\ e_uuid e = u /\ forall x, In x p2 -> ~ clears u x.
Proof.
  split.
  - intros (e & (pre & d & post & -> & A & B) & <-). exists pre, d, e, post. auto.
  - induction h as [|o h IH] using rev_ind; intros (p1 & d & e & p2 & E & U & A).
    + destruct p1; discriminate.
    + destruct p2 as [|y p2 _] using rev_ind.
      * apply app_inj_tail in E. destruct E as [-> ->].
        assert (D : (exists p1' d' e' p2', p1 = p1' ++ Error d' e' :: p2' /\ e_uuid e' = u /\ forall x, In x p2' -> ~ clears u x) \/
                    (forall p1' d' e' p2', p1 = p1' ++ Error d' e' :: p2' -> e_uuid e' = u -> exists x, In x p2' /\ clears u x)).
        { clear. induction p1 as [|o h IH].
          - right. intros [|? ?]; discriminate.
          - destruct IH as [(p & d & e & q & -> & U & A)|IH].
            + left. exists (o :: p), d, e, q. auto.
            + assert (X : (exists x, In x h /\ clears u x) \/ (forall x, In x h -> ~ clears u x)).
              { clear. induction h as [|y h IH]; [right; intros ? []|]. destruct (clears_dec u y); [left; exists y; cbn; auto|].
                destruct IH as [(x & I & C)|IH]; [left; exists x; cbn; auto|right]. intros x [<-|I]; auto. }
              destruct X as [X|X].
              * right. intros [|y p] d e q E U; inversion E; subst; [exact X|eauto].
              * destruct (match o with Error _ e => if string_dec (e_uuid e) u then true else false | _ => false end) eqn:K.
                { destruct o; try discriminate. destruct (string_dec (e_uuid e) u); [|discriminate]. left. exists [], c, e, h. auto. }
                { right. intros [|y p] d e q E U; inversion E; subst; [|eauto]. destruct (string_dec (e_uuid e) (e_uuid e)); congruence. } }
        destruct D as [D|D].
        { destruct (IH D) as (e' & Ac & U'). exists e'. split; [|exact U']. apply active_snoc. left. split; [exact Ac|cbn; tauto]. }
        { exists e. split; [|exact U]. apply active_snoc. right. exists d. split; [reflexivity|]. rewrite U. exact D. }
      * rewrite app_comm_cons, app_assoc in E. apply app_inj_tail in E. destruct E as [-> ->].
        destruct IH as (e' & Ac & U'). { exists p1, d, e, p2. repeat split; auto. intros x I. apply A. apply in_app_iff. auto. }
        exists e'. split; [|exact U']. apply active_snoc. left. split; [exact Ac|]. rewrite U'. apply A. apply in_app_iff. right. left. reflexivity.
Qed.

Lemma NoDup_map_filter {A B} (f : A -> B) p l : NoDup (map f l) -> NoDup (map f (filter p l)).
Proof.
  induction l as [|x l IH]; cbn; [auto|]. intros N. inversion N; subst. destruct (p x); cbn; [|auto].
  constructor; [|auto]. intros I. apply in_map_iff in I. destruct I as (y & E & I). apply filter_In in I. apply H1.
  apply in_map_iff. exists y. split; [exact E|apply I].
Qed.

Lemma errs_step c h f o : errs_ok h f -> concerns c o = true -> errs_ok (h ++ [o]) (fst (fsm_step f o)).
Proof.
  intros [A N] C. destruct o; try discriminate C; cbn [fsm_step].
  - assert (E : f_errors (fst (handle_event f e ts info)) = f_errors f). { unfold handle_event. destruct (find_transition (f_state f) e); reflexivity. }
    split; [|rewrite E; exact N]. intros x. rewrite E, A, active_snoc. cbn. split; [auto|]. intros [[H _]|(d & H & _)]; [exact H|discriminate].
  - unfold handle_error. destruct (has_error f (e_uuid e)) eqn:H.
    + split; [|exact N]. intros x. rewrite A, active_snoc. cbn. split; [auto|]. intros [[K _]|(d & K & B)]; [exact K|]. inversion K; subst.
      apply has_error_in, in_map_iff in H. destruct H as (y & U & I). apply A in I.
      assert (X : exists e0, active h e0 /\ e_uuid e0 = e_uuid x) by eauto. apply active_uuid in X. destruct X as (p1 & d' & e' & p2 & -> & U2 & D).
      destruct (B p1 d' e' p2 eq_refl U2) as (z & I1 & I2). exfalso. exact (D z I1 I2).
    + cbn [fst f_errors f_state]. assert (NI : ~ In (e_uuid e) (map e_uuid (f_errors f))) by (intros I; apply has_error_in in I; congruence).
      split.
      * intros x. cbn [f_errors]. rewrite in_app_iff, A, active_snoc. cbn. split.
        { intros [K|[<-|[]]]; [auto|]. right. exists c0. split; [reflexivity|]. intros p1 d' e' p2 E U.
          assert (X : {exists z, In z p2 /\ clears (e_uuid e) z} + {forall z, In z p2 -> ~ clears (e_uuid e) z}).
          { clear. induction p2 as [|y h IH]; [right; intros ? []|]. destruct (clears_dec (e_uuid e) y); [left; exists y; cbn; auto|].
            destruct IH as [X|X]; [left; destruct X as (x & I & C); exists x; cbn; auto|right]. intros x [<-|I]; auto. }
          destruct X as [X|X]; [exact X|]. exfalso. apply NI.
          assert (Y : exists e0, active h e0 /\ e_uuid e0 = e_uuid e) by (apply active_uuid; exists p1, d', e', p2; auto).
          destruct Y as (e0 & Ac & U0). rewrite <- U0. apply in_map. apply A. exact Ac. }
        { intros [[K _]|(d & K & _)]; [auto|]. inversion K. auto. }
      * cbn [f_errors]. rewrite map_app. cbn. apply NoDup_Add with (a := e_uuid e) (l := map e_uuid (f_errors f)); [|auto].
        rewrite <- (app_nil_r (map e_uuid (f_errors f))) at 1. apply Add_app.
  - unfold handle_error_cleared. assert (Q : forall x, active (h ++ [Cleared c0 uuid now]) x <-> active h x /\ e_uuid x <> uuid).
    { intros x. rewrite active_snoc. cbn. split; [intros [[K L]|(d & K & _)]; [auto|discriminate]|]. intros [K L]. left. auto. }
    destruct (has_error f uuid) eqn:H; cbn [negb].
    + match goal with |- errs_ok _ (fst (if ?b then (?g, _) else _)) => assert (E : fst (if b then (g, @nil note) else (g, [match fsm_latest g with
            | Some e => Note (f_state g) (e_code e) now (e_info e) (e_vendor e) (e_vcode e)
            | None => Note (f_state g) NoError now None None None
            end])) = g) by (destruct b; reflexivity); rewrite E end.
      split; cbn [f_errors]; [|apply NoDup_map_filter; exact N]. intros x. rewrite filter_In, Q, A, negb_true_iff.
      rewrite String.eqb_neq. reflexivity.
    + split; [|exact N]. intros x. cbn [fst]. rewrite Q, A. split; [|tauto]. intros K. split; [exact K|].
      intros U. apply A in K. apply (in_map e_uuid) in K. rewrite U in K. apply has_error_in in K. congruence.
  - cbn. split; [|constructor]. intros x. cbn. rewrite active_snoc. cbn. split; [tauto|]. intros [[_ K]|(d & K & _)]; [tauto|discriminate].
Qed.

(** ** Runs *)

Lemma moves_step s e : moves s e (match find_transition s e with Some d => d | None => s end).
Proof.
  destruct (find_transition s e) as [d|] eqn:E.
  - apply table in E. destruct E as [A ->]. constructor. exact A.
  - constructor. intros A. assert (X : find_transition s e = Some (target e)) by (apply table; auto). congruence.
Qed.
Lemma runs_snoc s q t e u : runs s q t -> moves t e u -> runs s (q ++ [e]) u.
Proof. induction 1; cbn; intros M; econstructor; eauto; constructor. Qed.

Lemma state_step f o : f_state (fst (fsm_step f o)) = match o with
  | Event _ e _ _ => match find_transition (f_state f) e with Some d => d | None => f_state f end | _ => f_state f end.
Proof.
  destruct o; cbn; try reflexivity.
  - unfold handle_event. destruct (find_transition (f_state f) e); reflexivity.
  - unfold handle_error. destruct (has_error f (e_uuid e)); reflexivity.
  - unfold handle_error_cleared. destruct (negb (has_error f uuid)); [reflexivity|].
    match goal with |- context [if ?b then _ else _] => destruct b; reflexivity end.
Qed.

Lemma history_snoc c os o : history c (os ++ [o]) = history c os ++ (if concerns c o then [o] else []).
Proof. unfold history. rewrite filter_app. cbn. destruct (concerns c o); reflexivity. Qed.
Lemma events_app a b : events (a ++ b) = events a ++ events b.
Proof. apply flat_map_app. Qed.
Lemma final_snoc s os o : final s (os ++ [o]) = fst (step (final s os) o).
Proof. revert s. induction os as [|x os IH]; intros s; cbn; auto. Qed.
Lemma outs_snoc s os o : outs s (os ++ [o]) = outs s os ++ snd (step (final s os) o).
Proof. revert s. induction os as [|x os IH]; intros s; cbn; [now rewrite app_nil_r|]. rewrite IH, app_assoc. reflexivity. Qed.

Definition inv (c : Z) (start : status) (os : list op) (s : states) : Prop :=
  valid s c /\ exists f, machine s c = Some f /\ errs_ok (history c os) f /\ runs start (events (history c os)) (f_state f).

Lemma inv_run c start s0 os : valid s0 c -> machine s0 c = Some (Fsm start []) -> no_reset os -> inv c start os (final s0 os).
Proof.
  intros V M. induction os as [|o os IH] using rev_ind; intros NR.
  - split; [exact V|]. exists (Fsm start []). split; [exact M|]. split; [|constructor].
    split; [|constructor]. intros e. cbn. split; [tauto|]. intros (pre & d & post & E & _). destruct pre; discriminate.
  - destruct IH as (V' & f & M' & E & R). { intros m I. apply (NR m). apply in_app_iff. auto. }
    assert (NO : forall m, o <> Reset m). { intros m ->. apply (NR m). apply in_app_iff. right. left. reflexivity. }
    rewrite final_snoc. destruct (step_eff _ _ _ V' NO) as (V2 & _ & M2 & _). split; [exact V2|].
    rewrite history_snoc, M2, M'. destruct (concerns c o) eqn:C.
    + exists (fst (fsm_step f o)). split; [reflexivity|]. split; [eapply errs_step; eauto|].
      rewrite events_app, state_step. destruct o; cbn [events flat_map app]; rewrite ?app_nil_r; try exact R.
      eapply runs_snoc; [exact R|]. apply moves_step.
    + exists f. rewrite app_nil_r. auto.
Qed.

Lemma get_state_machine s c f : valid s c -> machine s c = Some f -> get_state s c = Some (fsm_get_state f).
Proof.
  intros [_ B]. unfold machine, get_state. destruct (Z.eqb_spec c 0) as [->|C0].
  - cbn. intros ->. reflexivity.
  - replace (0 <? c) with true by (symmetry; apply Z.ltb_lt; lia). replace (c <=? _) with true by (symmetry; apply Z.leb_le; lia). cbn. intros ->. reflexivity.
Qed.
Lemma get_latest_machine s c f : valid s c -> machine s c = Some f -> get_latest_error s c = Some (fsm_latest f).
Proof.
  intros [_ B]. unfold machine, get_latest_error. destruct (Z.eqb_spec c 0) as [->|C0].
  - cbn. intros ->. reflexivity.
  - replace (0 <? c) with true by (symmetry; apply Z.ltb_lt; lia). replace (c <=? _) with true by (symmetry; apply Z.leb_le; lia). cbn. intros ->. reflexivity.
Qed.

(** ** Reset *)

Lemma assoc_in (m : list (Z * status)) c i : NoDup (map fst m) -> In (c, i) m -> assoc Z.eqb c m = Some i.
Proof.
  induction m as [|[k v] m IH]; cbn; [tauto|]. intros N [E|I].
  - inversion E; subst. rewrite Z.eqb_refl. reflexivity.
  - inversion N; subst. destruct (Z.eqb_spec c k) as [->|]; [|auto]. exfalso. apply H1. apply in_map_iff. exists (k, i). auto.
Qed.

Lemma reset_rest start m : NoDup (map fst m) -> forall k c s, 0 < c -> (forall d, c <= d < c + Z.of_nat k -> In (d, start d) m) ->
  Z.of_nat (length (machines s)) = c - 1 ->
  reset_loop m k c s = (States (zero s) (machines s ++ map (fun i => Fsm (start (c + Z.of_nat i)) []) (seq 0 k)), []).
Proof.
  intros N. induction k as [|k IH]; intros c s C I L; cbn [reset_loop].
  - cbn. rewrite app_nil_r. destruct s; reflexivity.
  - rewrite (assoc_in m c (start c)) by (auto; apply I; lia). replace (c =? 0) with false by (symmetry; apply Z.eqb_neq; lia). cbn [andb].
    rewrite IH.
    + cbn [zero machines seq map]. rewrite <- app_assoc. cbn [app]. rewrite Z.add_0_r. rewrite <- seq_shift, map_map. do 4 f_equal.
      apply map_ext. intros i. do 2 f_equal. lia.
    + lia.
    + intros d D. apply I. lia.
    + cbn [machines]. rewrite app_length. cbn. lia.
Qed.

Lemma reset_ok s n start m : station n start m ->
  step s (Reset m) = (States (Some (Fsm (start 0) [])) (map (fun i => Fsm (start (1 + Z.of_nat i)) []) (seq 0 n)), []).
Proof.
  intros (L & I & N & S0). cbn [step]. rewrite L. cbn [reset_loop].
  rewrite (assoc_in m 0 (start 0)) by (auto; apply I; lia). cbn [Z.eqb andb].
  assert (E : negb (status_beq (start 0) Available) && negb (status_beq (start 0) Unavailable) && negb (status_beq (start 0) Faulted) = false).
  { destruct S0 as [<-|[<-|[<-|[]]]]; reflexivity. }
  rewrite E. rewrite (reset_rest start m N); [reflexivity|lia|intros d D; apply I; lia|reflexivity].
Qed.

Lemma reset_valid s n start m c : station n start m -> 0 <= c <= Z.of_nat n ->
  valid (fst (step s (Reset m))) c /\ machine (fst (step s (Reset m))) c = Some (Fsm (start c) []).
Proof.
  intros S B. rewrite (reset_ok s n start m S). cbn [fst]. split.
  - split; cbn; [discriminate|]. rewrite map_length, seq_length. exact B.
  - unfold machine. cbn [zero machines]. destruct (Z.eqb_spec c 0) as [->|C0]; [reflexivity|].
    replace (0 <? c) with true by (symmetry; apply Z.ltb_lt; lia).
    rewrite nth_error_map. assert (H : nth_error (seq 0 n) (Z.to_nat (c - 1)) = Some (Z.to_nat (c - 1))).
    { rewrite (nth_error_nth' _ 0%nat) by (rewrite seq_length; lia). rewrite seq_nth by lia. reflexivity. }
    rewrite H. cbn [option_map]. replace (1 + Z.of_nat (Z.to_nat (c - 1))) with c by lia. reflexivity.
Qed.

(** ** Theorems *)

Lemma faulted_active h f : errs_ok h f -> (is_faulted f = true <-> exists e, active h e /\ e_fault e = true).
Proof.
  intros [A _]. unfold is_faulted. rewrite existsb_exists. split; intros (e & X & Y); exists e; (split; [|exact Y]); apply A; exact X.
Qed.

Lemma connector_state_lemma s0 n start m os c : station n start m -> no_reset os -> 0 <= c <= Z.of_nat n ->
  let s := final (fst (step s0 (Reset m))) os in
  exists u, runs (start c) (events (history c os)) u /\
    ((exists e, active (history c os) e /\ e_fault e = true) -> get_state s c = Some Faulted) /\
    (~ (exists e, active (history c os) e /\ e_fault e = true) -> get_state s c = Some u).
Proof.
  intros S NR B. cbn zeta. destruct (reset_valid s0 n start m c S B) as [V M].
  destruct (inv_run c (start c) _ os V M NR) as (V' & f & M' & E & R). exists (f_state f). split; [exact R|].
  rewrite (get_state_machine _ _ _ V' M'). pose proof (faulted_active _ _ E) as F. unfold fsm_get_state.
  destruct (is_faulted f); split; intros H; try reflexivity.
  - exfalso. apply H. apply F. reflexivity.
  - exfalso. apply F in H. discriminate.
Qed.

Lemma fold_latest l : forall e0, let r := fold_left (fun l x => if e_ts l <? e_ts x then x else l) l e0 in
  (r = e0 \/ In r l) /\ e_ts e0 <= e_ts r /\ forall x, In x l -> e_ts x <= e_ts r.
Proof.
  induction l as [|y l IH]; intros e0; cbn zeta.
  - cbn. split; [auto|]. split; [lia|intros ? []].
  - cbn [fold_left]. specialize (IH (if e_ts e0 <? e_ts y then y else e0)). cbn zeta in IH. destruct IH as (I & A & B).
    set (r := fold_left _ l _) in *. destruct (Z.ltb_spec (e_ts e0) (e_ts y)).
    + split; [cbn; intuition|]. split; [lia|]. intros x [<-|X]; auto.
    + split; [cbn; intuition|]. split; [lia|]. intros x [<-|X]; [lia|auto].
Qed.

Lemma latest_spec f : match fsm_latest f with
  | None => f_errors f = []
  | Some e => In e (f_errors f) /\ forall x, In x (f_errors f) -> e_ts x <= e_ts e
  end.
Proof.
  unfold fsm_latest. destruct (f_errors f) as [|e q]; [reflexivity|].
  pose proof (fold_latest (e :: q) e) as (I & A & B). cbn zeta in *. split; [|exact B]. destruct I as [->|I]; [left; reflexivity|exact I].
Qed.

Lemma latest_error_lemma s0 n start m os c : station n start m -> no_reset os -> 0 <= c <= Z.of_nat n ->
  exists r, get_latest_error (final (fst (step s0 (Reset m))) os) c = Some r /\
  match r with
  | None => forall e, ~ active (history c os) e
  | Some e => active (history c os) e /\ forall x, active (history c os) x -> e_ts x <= e_ts e
  end.
Proof.
  intros S NR B. destruct (reset_valid s0 n start m c S B) as [V M].
  destruct (inv_run c (start c) _ os V M NR) as (V' & f & M' & [E _] & R). exists (fsm_latest f).
  split; [apply get_latest_machine; assumption|]. pose proof (latest_spec f) as L. destruct (fsm_latest f) as [e|].
  - split; [apply E; apply L|]. intros x X. apply L. apply E. exact X.
  - intros e X. apply E in X. rewrite L in X. destruct X.
Qed.

Lemma fsm_step_told f o : told (fsm_get_state f) (snd (fsm_step f o)) = fsm_get_state (fst (fsm_step f o)).
Proof.
  destruct o; cbn [fsm_step]; try reflexivity.
  - unfold handle_event. destruct (find_transition (f_state f) e) as [d|]; [|reflexivity]. cbn [fst snd].
    unfold fsm_get_state, is_faulted. cbn [f_errors f_state]. destruct (existsb e_fault (f_errors f)); reflexivity.
  - unfold handle_error. destruct (has_error f (e_uuid e)); [reflexivity|]. cbn [fst snd]. unfold told, fsm_get_state. cbn [map last n_status]. reflexivity.
  - unfold handle_error_cleared. destruct (has_error f uuid) eqn:H; cbn [negb]; [|reflexivity].
    match goal with |- context [Fsm ?a ?b] => set (g := Fsm a b) end.
    destruct (is_faulted g) eqn:G.
    + cbn [fst snd]. unfold told. cbn. unfold fsm_get_state. rewrite G. replace (is_faulted f) with true; [reflexivity|]. symmetry.
      unfold is_faulted in *. apply existsb_exists in G. destruct G as (x & I & F). apply existsb_exists. exists x. split; [|exact F].
      cbn in I. apply filter_In in I. apply I.
    + cbn [fst snd]. unfold told, fsm_get_state. rewrite G. destruct (fsm_latest g); reflexivity.
Qed.

Lemma told_app k a b : told k (a ++ b) = told (told k a) b.
Proof.
  unfold told. rewrite map_app. destruct b as [|x b] using rev_ind; cbn; [now rewrite app_nil_r|].
  rewrite map_app, app_assoc. cbn. rewrite !last_last. reflexivity.
Qed.
Lemma notes_app c a b : notes c (a ++ b) = notes c a ++ notes c b.
Proof. apply flat_map_app. Qed.

Lemma told_run c start s0 os : valid s0 c -> machine s0 c = Some (Fsm start []) -> no_reset os ->
  Some (told start (notes c (outs s0 os))) = get_state (final s0 os) c.
Proof.
  intros V M. induction os as [|o os IH] using rev_ind; intros NR.
  - cbn. rewrite (get_state_machine _ _ _ V M). reflexivity.
  - assert (NR' : no_reset os). { intros m I. apply (NR m). apply in_app_iff. auto. }
    assert (NO : forall m, o <> Reset m). { intros m ->. apply (NR m). apply in_app_iff. right. left. reflexivity. }
    destruct (inv_run c start s0 os V M NR') as (V' & f & M' & E & R). specialize (IH NR').
    rewrite (get_state_machine _ _ _ V' M') in IH. injection IH as IH.
    rewrite outs_snoc, final_snoc, notes_app, told_app, IH.
    destruct (step_eff _ o _ V' NO) as (V2 & _ & M2 & T). rewrite M' in *. destruct (concerns c o) eqn:C.
    + rewrite (T eq_refl). rewrite (get_state_machine _ _ _ V2 M2). f_equal. apply fsm_step_told.
    + rewrite (step_unconcerned _ _ _ V' NO C f M'). rewrite (get_state_machine _ _ _ V2 M2). reflexivity.
Qed.

Lemma told_lemma s0 n start m os c : station n start m -> no_reset os -> 0 <= c <= Z.of_nat n ->
  let s := fst (step s0 (Reset m)) in
  Some (told (start c) (notes c (outs s os))) = get_state (final s os) c.
Proof. intros S NR B. destruct (reset_valid s0 n start m c S B) as [V M]. apply told_run; assumption. Qed.

(** ** Contents of the notifications *)

Lemma machine_at_zero s c f : machine_at s c f -> c = 0 -> zero s = Some f.
Proof. intros [[_ H]|[H _]] E; [exact H|lia]. Qed.

Lemma submit_at s c h f : machine_at s c f ->
  snd (submit s c h) = tag c (snd (h f)) /\ machine_at (fst (submit s c h)) c (fst (h f)).
Proof.
  intros H. unfold submit. destruct (Z.eqb_spec c 0) as [->|C0].
  - rewrite (machine_at_zero _ _ _ H eq_refl). cbn. split; [reflexivity|]. left. auto.
  - destruct H as [[H _]|[P H]]; [lia|]. assert (L : (Z.to_nat (c - 1) < length (machines s))%nat) by (apply nth_error_Some; congruence).
    replace (0 <? c) with true by (symmetry; apply Z.ltb_lt; lia). replace (c <=? _) with true by (symmetry; apply Z.leb_le; lia). cbn [andb].
    rewrite H. cbn [fst snd]. split; [reflexivity|]. right. split; [exact P|]. cbn [machines]. rewrite nth_set_nth, Nat.eqb_refl.
    replace (Nat.ltb _ _) with true by (symmetry; apply Nat.ltb_lt; exact L). reflexivity.
Qed.

Lemma fault_active_iff f : is_faulted f = true <-> fault_active f.
Proof. unfold is_faulted. apply existsb_exists. Qed.
Lemma fault_active_no f : is_faulted f = false <-> ~ fault_active f.
Proof. rewrite <- fault_active_iff. destruct (is_faulted f); split; intros; congruence. Qed.

Lemma latest_newest f e : fsm_latest f = Some e -> newest f e.
Proof. intros H. pose proof (latest_spec f) as L. rewrite H in L. exact L. Qed.
Lemma latest_none f : fsm_latest f = None -> f_errors f = [].
Proof. intros H. pose proof (latest_spec f) as L. rewrite H in L. exact L. Qed.

Lemma event_note s c f e ts info : machine_at s c f ->
  let r := step s (Event c e ts info) in
  exists f', machine_at (fst r) c f' /\ f_errors f' = f_errors f /\
  (~ applicable (f_state f) e -> f_state f' = f_state f /\ snd r = []) /\
  (applicable (f_state f) e -> f_state f' = target e /\
     (fault_active f -> snd r = []) /\
     (~ fault_active f -> exists n, snd r = [Notify c n] /\ n_status n = target e /\ n_ts n = ts /\ n_info n = info /\ reports_newest f n)).
Proof.
  intros M. cbn zeta. cbn [step]. destruct (submit_at s c (fun f => handle_event f e ts info) f M) as [O M'].
  exists (fst (handle_event f e ts info)). split; [exact M'|]. rewrite O. clear O M'. unfold handle_event.
  destruct (find_transition (f_state f) e) as [d|] eqn:T.
  - apply table in T. destruct T as [A ->]. cbn [fst snd f_errors f_state]. split; [reflexivity|]. split; [tauto|]. intros _. split; [reflexivity|].
    assert (EF : is_faulted (Fsm (target e) (f_errors f)) = is_faulted f) by reflexivity. rewrite EF. split; intros F.
    + apply fault_active_iff in F. rewrite F. reflexivity.
    + apply fault_active_no in F. rewrite F. cbn [negb tag map]. eexists. split; [reflexivity|]. cbn. repeat (split; [reflexivity|]).
      unfold latest_or_none. assert (EL : fsm_latest (Fsm (target e) (f_errors f)) = fsm_latest f) by reflexivity. rewrite EL.
      destruct (fsm_latest f) as [x|] eqn:L.
      * right. exists x. split; [apply latest_newest; exact L|]. cbn. auto.
      * left. split; [apply latest_none; exact L|]. cbn. auto.
  - cbn [fst snd]. split; [reflexivity|]. split; [auto|]. intros A. exfalso.
    assert (X : find_transition (f_state f) e = Some (target e)) by (apply table; auto). congruence.
Qed.

Lemma error_note s c f e : machine_at s c f ->
  let r := step s (Error c e) in
  (In (e_uuid e) (map e_uuid (f_errors f)) -> snd r = [] /\ machine_at (fst r) c f) /\
  (~ In (e_uuid e) (map e_uuid (f_errors f)) ->
     exists u, snd r = [Notify c (Note u (e_code e) (e_ts e) (e_info e) (e_vendor e) (e_vcode e))] /\
       (e_fault e = true \/ fault_active f -> u = Faulted) /\ (e_fault e = false -> ~ fault_active f -> u = f_state f)).
Proof.
  intros M. cbn zeta. cbn [step]. destruct (submit_at s c (fun f => handle_error f e) f M) as [O M'].
  rewrite O. clear O. unfold handle_error in *. pose proof (has_error_in f (e_uuid e)) as HI. destruct (has_error f (e_uuid e)).
  - cbn [fst snd] in *. split; [auto|]. intros N. exfalso. apply N, HI. reflexivity.
  - cbn [fst snd] in *. split; [intros I; apply HI in I; discriminate|]. intros _. eexists. split; [reflexivity|].
    assert (F : is_faulted (Fsm (f_state f) (f_errors f ++ [e])) = is_faulted f || e_fault e).
    { unfold is_faulted. cbn. rewrite existsb_app. cbn. now rewrite orb_false_r. }
    rewrite F. cbn [f_state]. split.
    + intros [->|A]; [now rewrite orb_true_r|]. apply fault_active_iff in A. now rewrite A.
    + intros -> A. apply fault_active_no in A. now rewrite A.
Qed.

Lemma cleared_note s c f u now : machine_at s c f ->
  let r := step s (Cleared c u now) in
  exists f', machine_at (fst r) c f' /\ f_state f' = f_state f /\
    (forall e, In e (f_errors f') <-> In e (f_errors f) /\ e_uuid e <> u) /\
    (~ In u (map e_uuid (f_errors f)) -> snd r = []) /\
    (In u (map e_uuid (f_errors f)) -> fault_active f' -> snd r = []) /\
    (In u (map e_uuid (f_errors f)) -> ~ fault_active f' ->
       exists n, snd r = [Notify c n] /\ n_status n = f_state f /\ n_ts n = now /\ reports_newest f' n /\
         (f_errors f' = [] -> n_info n = None) /\ (f_errors f' <> [] -> exists e, newest f' e /\ n_info n = e_info e /\ n_code n = e_code e)).
Proof.
  intros M. cbn zeta. cbn [step]. destruct (submit_at s c (fun f => handle_error_cleared f u now) f M) as [O M'].
  rewrite O. clear O. exists (fst (handle_error_cleared f u now)). split; [exact M'|]. clear M'. unfold handle_error_cleared.
  pose proof (has_error_in f u) as HI. destruct (has_error f u) eqn:H; cbn [negb].
  - match goal with |- context [Fsm ?a ?b] => set (g := Fsm a b) end.
    assert (GI : forall e, In e (f_errors g) <-> In e (f_errors f) /\ e_uuid e <> u).
    { intros e. cbn. rewrite filter_In, negb_true_iff, String.eqb_neq. reflexivity. }
    assert (GS : f_state g = f_state f) by reflexivity. clearbody g.
    match goal with |- context [if is_faulted g then (?a, ?b) else (?c', ?d)] => assert (FE : fst (if is_faulted g then (a, b) else (c', d)) = g) by (destruct (is_faulted g); reflexivity) end.
    rewrite FE. split; [exact GS|]. split; [exact GI|]. split; [intros N; exfalso; apply N, HI; reflexivity|].
    split; intros _ F.
    + apply fault_active_iff in F. rewrite F. reflexivity.
    + apply fault_active_no in F. rewrite F. cbn [snd tag map]. eexists. split; [reflexivity|].
      destruct (fsm_latest g) as [x|] eqn:L.
      * apply latest_newest in L. cbn. split; [exact GS|]. split; [reflexivity|]. split; [right; exists x; cbn; auto|].
        split; [intros Z; destruct L as [L _]; rewrite Z in L; destruct L|]. intros _. exists x. auto.
      * apply latest_none in L. cbn. split; [exact GS|]. split; [reflexivity|]. split; [left; cbn; auto|]. split; [auto|]. intros Z. congruence.
  - cbn [fst snd]. split; [reflexivity|]. split.
    + intros e. split; [|tauto]. intros I. split; [exact I|]. intros E. assert (K : In u (map e_uuid (f_errors f))) by (rewrite <- E; apply in_map; exact I).
      apply HI in K. discriminate.
    + split; [auto|]. split; intros I; apply HI in I; discriminate.
Qed.

Lemma all_cleared_note s c f now : machine_at s c f ->
  let r := step s (AllCleared c now) in
  snd r = [Notify c (Note (f_state f) NoError now None None None)] /\ machine_at (fst r) c (Fsm (f_state f) []).
Proof.
  intros M. cbn zeta. cbn [step]. destruct (submit_at s c (fun f => handle_all_errors_cleared f now) f M) as [O M']. rewrite O. cbn in *. auto.
Qed.

Lemma trigger_note s c f now : machine_at s c f -> zero s <> None ->
  exists n, snd (step s (Trigger c now)) = [Notify c n] /\ notes c (snd (step s (TriggerAll now))) = [n] /\
    fst (step s (Trigger c now)) = s /\ fst (step s (TriggerAll now)) = s /\
    get_state s c = Some (n_status n) /\ reports_newest f n /\
    (f_errors f = [] -> n_info n = None /\ n_ts n = now) /\
    (f_errors f <> [] -> exists e, newest f e /\ n_info n = e_info e /\ n_code n = e_code e /\ n_ts n = e_ts e).
Proof.
  intros M Z0. set (n := let e := latest_or_none f now in Note (if is_faulted f then Faulted else f_state f) (e_code e) (e_ts e) (e_info e) (e_vendor e) (e_vcode e)).
  assert (V : valid s c). { split; [exact Z0|]. destruct M as [[-> _]|[P H]]; [lia|]. assert (L : (Z.to_nat (c - 1) < length (machines s))%nat) by (apply nth_error_Some; congruence). lia. }
  assert (MM : machine s c = Some f).
  { unfold machine. destruct M as [[-> H]|[P H]]; [exact H|]. destruct (Z.eqb_spec c 0); [lia|]. replace (0 <? c) with true by (symmetry; apply Z.ltb_lt; lia). exact H. }
  exists n. split.
  - cbn [step snd]. unfold trigger_one. destruct M as [[-> H]|[P H]].
    + cbn. rewrite H. reflexivity.
    + destruct (Z.eqb_spec c 0); [lia|]. replace (c <? 0) with false by (symmetry; apply Z.ltb_ge; lia). rewrite H. reflexivity.
  - split.
    { cbn [step snd]. unfold trigger_all. destruct (zero s) as [g|] eqn:E; [|congruence].
      assert (T : forall c d l, notes d (tag c l) = if c =? d then l else []).
      { intros c' d' l. induction l as [|x l IH]; cbn; [destruct (c' =? d'); reflexivity|].
        change (notes d' (tag c' l)) with (notes d' (map (Notify c') l)) in IH. unfold notes in *. rewrite IH. destruct (c' =? d'); reflexivity. }
      assert (TL : forall l b, notes c (trigger_list b l now) =
          if b <=? c then match nth_error l (Z.to_nat (c - b)) with Some g => trigger g now | None => [] end else []).
      { induction l as [|h l IH]; intros b; cbn [trigger_list].
        - destruct (b <=? c); [|reflexivity]. destruct (Z.to_nat (c - b)); reflexivity.
        - rewrite notes_app, T, IH. destruct (Z.eqb_spec b c) as [->|NE].
          + replace (c + 1 <=? c) with false by (symmetry; apply Z.leb_gt; lia). rewrite Z.leb_refl, Z.sub_diag. cbn. reflexivity.
          + destruct (Z.leb_spec b c).
            * replace (b + 1 <=? c) with true by (symmetry; apply Z.leb_le; lia).
              replace (Z.to_nat (c - b)) with (S (Z.to_nat (c - (b + 1)))) by lia. reflexivity.
            * replace (b + 1 <=? c) with false by (symmetry; apply Z.leb_gt; lia). reflexivity. }
      rewrite notes_app, T, TL. destruct M as [[-> H]|[P H]].
      + cbn. rewrite E in H. inversion H; subst. reflexivity.
      + replace (0 =? c) with false by (symmetry; apply Z.eqb_neq; lia). replace (1 <=? c) with true by (symmetry; apply Z.leb_le; lia). rewrite H. reflexivity. }
    split; [reflexivity|]. split; [reflexivity|]. split; [apply get_state_machine; assumption|].
    unfold n, latest_or_none. cbn zeta. destruct (fsm_latest f) as [x|] eqn:L.
    + apply latest_newest in L. split; [right; exists x; cbn; auto|]. split; [intros Z; destruct L as [L _]; rewrite Z in L; destruct L|].
      intros _. exists x. cbn. auto.
    + apply latest_none in L. split; [left; cbn; auto|]. split; [cbn; auto|]. intros Z. congruence.
Qed.

Lemma unknown_connector s c : zero s <> None -> (c < 0 \/ Z.of_nat (length (machines s)) < c) ->
  (forall e ts info, step s (Event c e ts info) = (s, [])) /\ (forall e, step s (Error c e) = (s, [])) /\
  (forall u now, step s (Cleared c u now) = (s, [])) /\ (forall now, step s (AllCleared c now) = (s, [])) /\
  (forall now, step s (Trigger c now) = (s, [Throw])) /\
  get_state s c = Some Unavailable /\ get_latest_error s c = get_latest_error s 0.
Proof.
  intros Z0 H. assert (E0 : c =? 0 = false) by (apply Z.eqb_neq; lia).
  assert (E1 : (0 <? c) && (c <=? Z.of_nat (length (machines s))) = false).
  { apply andb_false_iff. rewrite Z.ltb_ge, Z.leb_gt. lia. }
  assert (S : forall h, submit s c h = (s, [])) by (intros h; unfold submit; rewrite E0, E1; reflexivity).
  repeat split; intros; cbn [step]; try apply S.
  - unfold trigger_one. rewrite E0. destruct (Z.ltb_spec c 0); [reflexivity|].
    destruct (nth_error (machines s) (Z.to_nat (c - 1))) eqn:N; [|reflexivity].
    assert (L : (Z.to_nat (c - 1) < length (machines s))%nat) by (apply nth_error_Some; congruence). lia.
  - unfold get_state. rewrite E0, E1. reflexivity.
  - unfold get_latest_error. rewrite E1. reflexivity.
Qed.

(** ** ErrorInfo *)

Lemma cut_spec n s : fits n s (cut n s).
Proof.
  unfold fits. destruct s as [x|]; cbn [cut]; [|reflexivity]. destruct (Nat.ltb_spec n (String.length x)) as [L|L].
  - exists x. split; [reflexivity|]. split; [lia|]. intros _.
    assert (X : forall n x, (n <= String.length x)%nat -> String.length (substring 0 n x) = n /\ exists r, x = (substring 0 n x ++ r)%string).
    { clear. induction n as [|n IH]; intros [|a x]; cbn; try lia.
      - eauto.
      - eauto.
      - intros H. destruct (IH x) as [A [r B]]; [lia|]. split; [congruence|]. exists r. congruence. }
    apply X. lia.
  - exists x. split; [reflexivity|]. split; [auto|lia].
Qed.

Lemma mk_error_spec u k fl i v c now :
  let e := mk_error u k fl i v c now in
  e_uuid e = u /\ e_code e = k /\ e_fault e = fl /\ e_ts e = now /\
  fits 50 i (e_info e) /\ fits 255 v (e_vendor e) /\ fits 50 c (e_vcode e).
Proof. cbn zeta. do 4 (split; [reflexivity|]). unfold mk_error. cbn [e_info e_vendor e_vcode]. repeat split; apply cut_spec. Qed.

(** ** Connector 0 *)

Lemma connector_zero_reduced s0 n start m os : station n start m -> no_reset os ->
  (forall e ts info, In (Event 0 e ts info) os ->
     In e [BecomeAvailable; ChangeAvailabilityToUnavailable; I1_ReturnToAvailable; I8_ReturnToUnavailable]) ->
  exists u, get_state (final (fst (step s0 (Reset m))) os) 0 = Some u /\ In u [Available; Unavailable; Faulted].
Proof.
  intros S NR Q. destruct (connector_state_lemma s0 n start m os 0 S NR ltac:(lia)) as (u & R & F & NF).
  assert (U : In u [Available; Unavailable; Faulted]).
  { assert (HE : Forall (fun e => In e [BecomeAvailable; ChangeAvailabilityToUnavailable; I1_ReturnToAvailable; I8_ReturnToUnavailable]) (events (history 0 os))).
    { apply Forall_forall. intros e I. apply in_flat_map in I. destruct I as (o & I & E). apply filter_In in I. destruct I as [I C].
      destruct o; try destruct E as [<-|[]]; try destruct E. cbn in C. apply Z.eqb_eq in C. subst. eapply Q. exact I. }
    assert (H0 : In (start 0) [Available; Unavailable; Faulted]) by apply S. clear - R HE H0.
    induction R; [exact H0|]. inversion HE; subst. apply IHR; [assumption|]. inversion H; subst; [|assumption].
    destruct H3 as [<-|[<-|[<-|[<-|[]]]]]; cbn; auto. }
  assert (D : (exists e, active (history 0 os) e /\ e_fault e = true) \/ ~ (exists e, active (history 0 os) e /\ e_fault e = true)).
  { destruct (reset_valid s0 n start m 0 S ltac:(lia)) as [V M].
    destruct (inv_run 0 (start 0) _ os V M NR) as (V' & f & M' & E & _). pose proof (faulted_active _ _ E) as X.
    destruct (is_faulted f); [left; apply X; reflexivity|right]. intros Y. apply X in Y. discriminate. }
  destruct D as [D|D].
  - exists Faulted. split; [apply F; exact D|cbn; auto].
  - exists u. split; [apply NF; exact D|exact U].
Qed.

Lemma reset_bad s m i : NoDup (map fst m) -> In (0, i) m -> ~ In i [Available; Unavailable; Faulted] ->
  step s (Reset m) = (States (zero s) [], [Throw]).
Proof.
  intros N I B. cbn [step]. destruct m as [|p m]; [destruct I|]. cbn [length reset_loop].
  rewrite (assoc_in _ 0 i N I). destruct i; cbn in B; try (exfalso; intuition congruence); reflexivity.
Qed.
