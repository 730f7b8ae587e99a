(** C70: times survive their text. *)
From Coq Require Import ZArith List Bool String Ascii Lia.
From Verif Require Import StrModel JsonModel DtModel DtSpec DtCalendar DtProofs.
Import ListNotations.
Local Open Scope string_scope.
Local Open Scope Z_scope.

(** The text written for a time is its RFC 3339 text in UTC, cut off (towards 1970) to milliseconds. *)
Theorem C70_times_are_written_as_rfc3339 : forall t, - 2 ^ 63 <= t < 2 ^ 63 -> rfc3339 (to_rfc3339 t) (Z.quot t 1000000 * 1000000).
Proof. exact rfc3339_writes. Qed.
Print Assumptions C70_times_are_written_as_rfc3339.
(** It has 24 characters; so, of two texts, both have the same layout. *)
Theorem C70_times_have_a_fixed_length : forall t, String.length (to_rfc3339 t) = 24%nat.
Proof.
  intros t. unfold to_rfc3339. destruct (civil_from_days _) as [[y m] d]. rewrite !length_app.
  assert (L : forall w n, String.length (pad w n) = w) by (clear; induction w as [|w IH]; intros n; [reflexivity|]; cbn [pad]; rewrite length_app, IH; cbn; lia).
  rewrite !L. reflexivity.
Qed.
Print Assumptions C70_times_have_a_fixed_length.
Example C70_written_ex : to_rfc3339 1709164799999999999 = "2024-02-28T23:59:59.999Z" /\ to_rfc3339 (1709164799999999999 + 86400000000000) = "2024-02-29T23:59:59.999Z" /\
  to_rfc3339 (-1) = "1970-01-01T00:00:00.000Z" /\ to_rfc3339 (- 2 ^ 63) = "1677-09-21T00:12:43.146Z" /\ to_rfc3339 (2 ^ 63 - 1) = "2262-04-11T23:47:16.854Z".
Proof. vm_compute. repeat split. Qed.

(** Whatever is written according to RFC 3339 (with any offset and up to nine digits of a second's fraction) is read as the
    time it means. *)
Theorem C70_rfc3339_is_understood : forall s t, rfc3339 s t -> from_rfc3339 s = Some t.
Proof. exact rfc3339_reads. Qed.
Print Assumptions C70_rfc3339_is_understood.
(** So no text means two times. *)
Theorem C70_texts_mean_one_time : forall s t u, rfc3339 s t -> rfc3339 s u -> t = u.
Proof. intros s t u A B. apply rfc3339_reads in A, B. congruence. Qed.
Print Assumptions C70_texts_mean_one_time.
Example C70_read_ex : from_rfc3339 "2024-02-29T01:30:00.5+01:30" = Some 1709164800500000000 /\ from_rfc3339 "2024-02-28T22:30:00-01:30" = Some 1709164800000000000 /\
  from_rfc3339 "2023-02-29T00:00:00Z" = None /\ from_rfc3339 "2024-02-29" = None /\ from_rfc3339 "yesterday" = None.
Proof. vm_compute. repeat split. Qed.

(** Written and read again, a time is the same up to the fraction of a millisecond; a time of whole milliseconds is the same. *)
Theorem C70_times_survive : forall t, - 2 ^ 63 <= t < 2 ^ 63 -> from_rfc3339 (to_rfc3339 t) = Some (Z.quot t 1000000 * 1000000).
Proof. intros t B. apply rfc3339_reads, rfc3339_writes, B. Qed.
Print Assumptions C70_times_survive.
Theorem C70_milliseconds_survive : forall ms, - 2 ^ 63 <= ms * 1000000 < 2 ^ 63 -> from_rfc3339 (to_rfc3339 (ms * 1000000)) = Some (ms * 1000000).
Proof. intros ms B. rewrite C70_times_survive by exact B. rewrite Z.quot_mul by discriminate. reflexivity. Qed.
Print Assumptions C70_milliseconds_survive.
(** A text read and written again means the same time, up to the fraction of a millisecond. *)
Theorem C70_texts_survive : forall s t, rfc3339 s t -> - 2 ^ 63 <= t < 2 ^ 63 ->
  exists u, from_rfc3339 s = Some u /\ rfc3339 (to_rfc3339 u) (Z.quot t 1000000 * 1000000).
Proof. intros s t R B. exists t. split; [exact (rfc3339_reads s t R)|exact (rfc3339_writes t B)]. Qed.
Print Assumptions C70_texts_survive.
Example C70_survive_ex : from_rfc3339 (to_rfc3339 1709164799999999999) = Some 1709164799999000000 /\ from_rfc3339 (to_rfc3339 (-1)) = Some 0.
Proof. vm_compute. repeat split. Qed.

(** Finding: a text that only begins like a time is accepted, and its rest ignored. *)
Theorem C70_only_times_are_accepted_refuted : exists s t, from_rfc3339 s = Some t /\ (forall u, ~ rfc3339 s u).
Proof.
  exists "2020-01-01T00:00:00 nonsense", 1577836800000000000. split; [vm_compute; reflexivity|]. intros u (a&b&l&o&E&L&O&->).
  assert (T : forall a b c, a ++ b = c -> b = substring (String.length a) (String.length b) c).
  { clear. intros a b c <-. induction a as [|x a IH]; cbn; [|exact IH]. induction b as [|x b IH]; cbn; [|rewrite <- IH]; reflexivity. }
  assert (Len : String.length a = (28 - String.length b)%nat) by (apply (f_equal String.length) in E; rewrite length_app in E; cbn in E; lia).
  symmetry in E. apply T in E. rewrite Len in E. inversion O; subst; cbn [String.length append] in E.
  - vm_compute in E. discriminate E.
  - rewrite length_app in E. cbn [String.length append] in E. rewrite H0, H2 in E. vm_compute in E. discriminate E.
  - rewrite length_app in E. cbn [String.length append] in E. rewrite H0, H2 in E. vm_compute in E. discriminate E.
Qed.
Print Assumptions C70_only_times_are_accepted_refuted.
