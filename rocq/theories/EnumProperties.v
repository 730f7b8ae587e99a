(** Enumerations and their wire strings (C40). *)
From Coq Require Import String List Bool.
From Verif Require Import EnumModel EnumTables.
Import ListNotations.
Local Open Scope string_scope.

(** The one value whose string is not read back: the internal marker MessageType::InternalError of OCPP 1.6. *)
Definition only_internal (t : enum) (v : string) : Prop := t = e_v16_messagetype /\ v = "InternalError".

(** What is computed over all tables. *)
Definition mem (x : string) (l : list string) : bool := existsb (String.eqb x) l.
Definition is (o : option string) (x : string) : bool := match o with Some y => y =? x | None => false end.
Fixpoint nodup (l : list string) : bool := match l with [] => true | x :: q => negb (mem x q) && nodup q end.
Definition good (except : string -> bool) (t : enum) : bool :=
  forallb (fun v => match to_wire t v with Some s => is (of_wire t s) v || except v | None => false end) (e_decl t) &&
  forallb (fun p => match of_wire t (fst p) with Some v => mem v (e_decl t) && is (to_wire t v) (fst p) | None => false end) (e_in t) &&
  forallb (fun p => mem (fst p) (e_decl t)) (e_out t) &&
  nodup (e_decl t) && nodup (map snd (e_out t)).

Lemma mem_in : forall x l, mem x l = true <-> In x l.
Proof.
  intros x l. unfold mem. rewrite existsb_exists. split; [intros (y&I&E); apply String.eqb_eq in E; subst; exact I|].
  intros I. exists x. split; [exact I|apply String.eqb_refl].
Qed.
Lemma is_iff : forall o x, is o x = true <-> o = Some x.
Proof.
  intros [y|] x; cbn; [rewrite String.eqb_eq; split; congruence|]. split; intros E; inversion E.
Qed.
Lemma nodup_iff : forall l, nodup l = true -> NoDup l.
Proof.
  induction l as [|x q IH]; cbn; intros H; [constructor|]. apply andb_true_iff in H as [H1 H2]. constructor; [|auto].
  intros I. apply mem_in in I. rewrite I in H1. discriminate H1.
Qed.

Definition rest : list enum := filter (fun t => negb (e_name t =? "MessageType")) all_enums ++ [e_v2_messagetype].
Lemma rest_good : forallb (good (fun _ => false)) rest = true.
Proof. vm_compute. reflexivity. Qed.
Lemma v16_good : good (String.eqb "InternalError") e_v16_messagetype = true.
Proof. vm_compute. reflexivity. Qed.
Lemma message_types : filter (fun t => e_name t =? "MessageType") all_enums = [e_v16_messagetype; e_v2_messagetype].
Proof. vm_compute. reflexivity. Qed.
Lemma all_good : forall t, In t all_enums ->
  exists except, good except t = true /\ forall v, except v = true -> only_internal t v.
Proof.
  intros t I. destruct (e_name t =? "MessageType") eqn:E.
  - assert (J : In t [e_v16_messagetype; e_v2_messagetype]) by (rewrite <- message_types; apply filter_In; auto).
    destruct J as [<-|[<-|[]]].
    + exists (String.eqb "InternalError"). split; [exact v16_good|]. intros v V. apply String.eqb_eq in V. split; auto.
    + exists (fun _ => false). split; [|discriminate]. pose proof rest_good as G. rewrite forallb_forall in G. apply G.
      unfold rest. apply in_or_app. right. left. reflexivity.
  - exists (fun _ => false). split; [|discriminate]. pose proof rest_good as G. rewrite forallb_forall in G. apply G.
    unfold rest. apply in_or_app. left. apply filter_In. rewrite E. auto.
Qed.
Lemma find_fst : forall (l : list (string * string)) x p, find (fun p => fst p =? x) l = Some p -> In p l /\ fst p = x.
Proof. intros l x p F. apply find_some in F as [I E]. apply String.eqb_eq in E. auto. Qed.

(** Every value has a string, and the string gives the value back. *)
Theorem enum_round_trip_partial :
  forall t v, In t all_enums -> In v (e_decl t) -> ~ only_internal t v ->
  exists s, to_wire t v = Some s /\ of_wire t s = Some v.
Proof.
  intros t v I D N. destruct (all_good t I) as (ex&G&X). unfold good in G. do 4 apply andb_true_iff in G as [G _].
  rewrite forallb_forall in G. specialize (G v D). destruct (to_wire t v) as [s|]; [|discriminate G].
  exists s. split; [reflexivity|]. apply orb_true_iff in G as [G|G]; [apply is_iff; exact G|]. elim N. apply X. exact G.
Qed.
Print Assumptions enum_round_trip_partial.

(** Different values have different strings, every value has one, and the enumerators are pairwise different. *)
Theorem enum_strings_distinct :
  forall t, In t all_enums -> NoDup (e_decl t) /\
  (forall v, In v (e_decl t) -> to_wire t v <> None) /\
  (forall v w s, to_wire t v = Some s -> to_wire t w = Some s -> v = w).
Proof.
  intros t I. destruct (all_good t I) as (ex&G&_). unfold good in G. apply andb_true_iff in G as [G N2].
  apply andb_true_iff in G as [G N1]. do 2 apply andb_true_iff in G as [G _]. rewrite forallb_forall in G.
  split; [apply nodup_iff; exact N1|]. split.
  - intros v D. specialize (G v D). destruct (to_wire t v); congruence.
  - intros v w s V W. unfold to_wire in V, W.
    destruct (find (fun p => fst p =? v) (e_out t)) as [p|] eqn:P; [|discriminate V].
    destruct (find (fun p => fst p =? w) (e_out t)) as [q|] eqn:Q; [|discriminate W].
    apply find_fst in P as [P1 P2]. apply find_fst in Q as [Q1 Q2]. cbn in V, W.
    assert (E : snd p = snd q) by congruence. subst v w. f_equal. clear -N2 P1 Q1 E. apply nodup_iff in N2. revert N2 P1 Q1.
    induction (e_out t) as [|x l IH]; cbn; intros N P Q; [contradiction|]. inversion N as [|? ? N1 N3]; subst.
    destruct P as [->|P]; destruct Q as [->|Q]; auto; elim N1; [rewrite E|rewrite <- E]; apply in_map; assumption.
Qed.
Print Assumptions enum_strings_distinct.

(** A string is read as a value exactly when it is the string of that value; anything else is refused. *)
Theorem enum_refuses_everything_else :
  forall t s v, In t all_enums -> of_wire t s = Some v -> In v (e_decl t) /\ to_wire t v = Some s.
Proof.
  intros t s v I O. destruct (all_good t I) as (ex&G&_). unfold good in G. do 3 apply andb_true_iff in G as [G _].
  apply andb_true_iff in G as [_ G]. rewrite forallb_forall in G. unfold of_wire in O.
  destruct (find (fun p => fst p =? s) (e_in t)) as [p|] eqn:F; [|discriminate O]. pose proof F as F2.
  apply find_fst in F as [F1 F3]. specialize (G p F1). rewrite F3 in G. unfold of_wire in G. rewrite F2 in G. cbn in G, O.
  injection O as O. rewrite O in G. apply andb_true_iff in G as [G1 G2]. split; [apply mem_in; exact G1|apply is_iff; exact G2].
Qed.
Print Assumptions enum_refuses_everything_else.

Example enums_ex :
  List.length all_enums = 173%nat /\ In e_v2_measurand_enum all_enums /\ In "Power_Active_Import" (e_decl e_v2_measurand_enum) /\
  to_wire e_v2_measurand_enum "Power_Active_Import" = Some "Power.Active.Import" /\
  of_wire e_v2_measurand_enum "Power.Active.Import" = Some "Power_Active_Import" /\
  of_wire e_v2_measurand_enum "power.active.import" = None /\ ~ only_internal e_v2_measurand_enum "Power_Active_Import".
Proof.
  split; [vm_compute; reflexivity|]. split; [unfold all_enums; cbn; tauto|]. split; [cbn; tauto|].
  split; [vm_compute; reflexivity|]. split; [vm_compute; reflexivity|]. split; [vm_compute; reflexivity|]. intros [_ E]. discriminate E.
Qed.

(** MessageType::InternalError of OCPP 1.6 is written but not read. *)
Theorem enum_round_trip_refuted :
  exists t v s, In t all_enums /\ In v (e_decl t) /\ to_wire t v = Some s /\ of_wire t s = None.
Proof.
  exists e_v16_messagetype, "InternalError", "InternalError". split; [unfold all_enums; cbn; tauto|]. split; [cbn; tauto|].
  split; vm_compute; reflexivity.
Qed.
Print Assumptions enum_round_trip_refuted.
