(** Lemmas about allowed energy transfer. *)
From Coq Require Import String ZArith List Bool.
From Verif Require Import StrModel StrSpec StrProofs BdModel BdSpec.
Import ListNotations.
Local Open Scope string_scope.
Local Open Scope list_scope.
Local Open Scope Z_scope.

Lemma evseid_spec t : forall l n, get_transaction_evseid l t = Some n <-> RunsAt t l n.
Proof.
  induction l as [|e l IH]; intros n; cbn; [split; [discriminate|intros H; inversion H]|].
  destruct (e_transaction e) as [u|] eqn:E.
  - destruct (iequals t u) eqn:Q.
    + apply iequals_same in Q. assert (H : has t e) by (exists u; auto).
      split; [intros [= <-]; constructor; exact H|]. intros R. inversion R; subst; [reflexivity|contradiction].
    + assert (H : ~ has t e). { intros (w & W & S). rewrite E in W. injection W as <-. apply iequals_same in S. congruence. }
      rewrite IH. split; intros R; [apply runs_later; assumption|]. inversion R; subst; [contradiction|assumption].
  - assert (H : ~ has t e). { intros (w & W & S). congruence. }
    rewrite IH. split; intros R; [apply runs_later; assumption|]. inversion R; subst; [contradiction|assumption].
Qed.

Lemma prefix_spec : forall p s, prefix p s = true <-> exists b, s = (p ++ b)%string.
Proof.
  induction p as [|a p IH]; intros s; cbn; [split; [exists s; reflexivity|destruct s; reflexivity]|].
  destruct s as [|c s]; [split; [discriminate|intros (b & E); discriminate]|].
  change (prefix (String a p) (String c s)) with (if Ascii.ascii_dec a c then prefix p s else false).
  destruct (Ascii.ascii_dec a c) as [->|N].
  - rewrite IH. split; intros (b & E); exists b; [rewrite E; reflexivity|injection E; auto].
  - split; [discriminate|]. intros (b & E). congruence.
Qed.

Lemma contains_spec p : forall s, contains p s = true <-> exists a b, s = (a ++ p ++ b)%string.
Proof.
  induction s as [|c s IH].
  - cbn [contains]. rewrite orb_false_r, prefix_spec. split; [intros (b & E); exists "", b; exact E|].
    intros (a & b & E). destruct a; [exists b; exact E|discriminate].
  - cbn [contains]. rewrite orb_true_iff, prefix_spec, IH. split.
    + intros [(b & E)|(a & b & E)]; [exists "", b; exact E|exists (String c a), b; cbn; congruence].
    + intros (a & b & E). destruct a as [|d a]; [left; exists b; exact E|]. right. exists a, b. cbn in E. congruence.
Qed.

Lemma speaks_spec p : match p with Some q => contains iso20 q | None => false end = true <-> speaks_iso20 p.
Proof.
  unfold speaks_iso20. destruct p as [q|].
  - rewrite contains_spec. unfold iso20. split; intros (a & b & E); exists a, b; congruence.
  - split; [discriminate|]. intros (a & b & E). discriminate.
Qed.
Lemma true_spec b : value_or_false b = true <-> b = Some true.
Proof. destruct b as [[]|]; cbn; split; congruence. Qed.
Lemma runs_one t : forall l n m, RunsAt t l n -> RunsAt t l m -> n = m.
Proof. intros l n m A B. apply evseid_spec in A, B. congruence. Qed.
