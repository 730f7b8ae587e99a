(** Proofs about the change of the security profile. *)
From Coq Require Import ZArith List Bool Lia.
From Verif Require Import Sp16Model Sp16Spec.
Import ListNotations.
Open Scope Z_scope.

Lemma allowed_spec c v key ca leaf : allowed c v key ca leaf = true <-> c < v /\ possible v key ca leaf.
Proof.
  unfold allowed, possible.
  destruct (Z.leb_spec v c); [split; [discriminate|lia]|].
  destruct (Z.eqb_spec v 1), (Z.eqb_spec v 2), (Z.eqb_spec v 3), (Z.ltb_spec 3 v), key, ca, leaf; cbn [orb andb negb]; try lia;
    split; try discriminate; try (intros; repeat split; lia || (intros; lia) || auto); intros (A & B & C & D & E);
    try lia; try (specialize (C ltac:(lia)); discriminate); try (specialize (D ltac:(lia)); discriminate); try (specialize (E ltac:(lia)); discriminate).
Qed.

(** The phases of a change; [b] is the profile of the last connection, [v] the one to change to. *)
Inductive phase (b : Z) : state -> Prop :=
| p_up : phase b (S b None None (Up b) false (b, -1) false)
| p_told v : b < v -> phase b (S b (Some (v, 1)) None (Up b) true (b, -1) false)
| p_wait v o : b < v -> phase b (S v (Some (b, -1)) (Some (v, 1)) Idle false o false)
| p_try v o : b < v -> phase b (S v (Some (b, -1)) None (Trying v 1) false o false)
| p_back v o : b < v -> phase b (S b (Some (v, -1)) (Some (b, -1)) Idle false o false)
| p_again v o : b < v -> phase b (S b (Some (v, -1)) None (Trying b (-1)) false o false)
| p_lost : phase b (S b None None (Trying b (-1)) false (b, -1) false).

Lemma phase_step b s e : phase b s -> e <> Stop -> e <> Connect -> e <> Restart ->
  (forall v key ca leaf, e = Request v key ca leaf -> closing s = false /\ exists q, conn s = Up q) ->
  phase (proven (conn s) (conn (fst (step s e))) b) (fst (step s e)).
Proof.
  intros P N K M R. destruct e as [v key ca leaf| | | | | | | |]; try congruence.
  - destruct (R v key ca leaf eq_refl) as [R1 (q & R2)].
    destruct P; cbn [closing conn] in *; try discriminate. cbn [step prof].
    destruct (allowed b v key ca leaf) eqn:A; [|cbn; constructor].
    apply allowed_spec in A as [A _]. unfold disconnect. cbn. now constructor.
  - destruct P; cbn; constructor; assumption.
  - destruct P; cbn; constructor; assumption.
  - destruct P; cbn; constructor; assumption.
  - destruct P; cbn; constructor; assumption.
  - destruct P; cbn; constructor; assumption.
Qed.
Lemma happened_phase p h b s : happened p h b s -> undisturbed h -> phase b s.
Proof.
  induction 1 as [|h b s e H IH R]; intros (U & W & V); [constructor|].
  apply phase_step; [apply IH; split; [|split]; intros X; [apply U|apply W|apply V]; now right| | | |exact R].
  - intros ->. apply U. now left.
  - intros ->. apply W. now left.
  - intros ->. apply V. now left.
Qed.
