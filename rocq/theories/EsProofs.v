From Coq Require Import List String Arith Lia Bool.
From Verif Require Import EsModel EsSpec.
Import ListNotations.

Lemma ci_ok : forall n s, String.length s <= n -> ci n s = Ok s.
Proof. intros n s H. unfold ci. destruct (Nat.ltb_spec n (String.length s)); [lia|reflexivity]. Qed.

Lemma ci_inv : forall n s, (ci n s = Ok s /\ String.length s <= n) \/ (ci n s = Threw /\ n < String.length s).
Proof. intros n s. unfold ci. destruct (Nat.ltb_spec n (String.length s)); auto. Qed.

(** One conversion either gives the same or throws because something does not fit. *)
Lemma to_hash_cases : forall h,
  (fits h /\ exists c, to_hash h = Ok c /\ same_hash h (to_hash_v2 c) /\
     from_hash (from_hash_v2 (to_hash_v2 c)) = h)
  \/ (~ fits h /\ to_hash h = Threw).
Proof.
  intros [a n k s]. unfold to_hash, fits. cbn [m_name m_key m_serial m_alg].
  destruct (ci_inv 128 n) as [[-> L1]|[-> L1]]; [|right; split; [lia|reflexivity]].
  destruct (ci_inv 128 k) as [[-> L2]|[-> L2]]; [|right; split; [lia|reflexivity]].
  destruct (ci_inv 40 s) as [[-> L3]|[-> L3]]; [|right; split; [lia|reflexivity]].
  left. split; [auto|]. eexists. split; [reflexivity|].
  split; [unfold same_hash|unfold from_hash, from_hash_v2, to_hash_v2]; cbn; destruct a; cbn; auto.
Qed.

Lemma each_hash_cases : forall l,
  (Forall fits l /\ exists cs, each to_hash l = Ok cs /\ Forall2 same_hash l (map to_hash_v2 cs))
  \/ (~ Forall fits l /\ each to_hash l = Threw).
Proof.
  induction l as [|h l IH]; [left; split; [constructor|exists []; split; [reflexivity|constructor]]|].
  cbn [each]. destruct (to_hash_cases h) as [[F [c [-> [S _]]]]|[F ->]].
  - cbn [bind]. destruct IH as [[G [cs [-> T]]]|[G ->]]; cbn [bind].
    + left. split; [constructor; assumption|]. exists (c :: cs). split; [reflexivity|].
      cbn. constructor; assumption.
    + right. split; [|reflexivity]. intros X. apply Forall_cons_iff in X. tauto.
  - right. split; [|reflexivity]. intros X. apply Forall_cons_iff in X. tauto.
Qed.

Lemma to_chain_cases : forall c,
  (chain_fits c /\ exists d, to_chain c = Ok d /\ same_chain c (to_chain_v2 d))
  \/ (~ chain_fits c /\ to_chain c = Threw).
Proof.
  intros [k h l]. unfold to_chain, chain_fits. cbn [m_hash m_children m_kind].
  destruct (to_hash_cases h) as [[F [c [-> [S _]]]]|[F ->]]; [|right; split; [tauto|reflexivity]].
  cbn [bind]. destruct (each_hash_cases l) as [[G [cs [-> T]]]|[G ->]]; cbn [bind];
    [|right; split; [tauto|reflexivity]].
  left. split; [auto|]. eexists. split; [reflexivity|].
  unfold same_chain, to_chain_v2. cbn [c_kind c_hash c_children v_kind v_hash v_children m_kind m_hash m_children].
  split; [destruct k; reflexivity|]. split; [exact S|].
  destruct cs as [|c1 cs].
  - cbn in T. inversion T. reflexivity.
  - cbn [map] in *. split; [discriminate|exact T].
Qed.

Lemma each_chain_cases : forall l,
  (Forall chain_fits l /\ exists ds, each to_chain l = Ok ds /\ Forall2 same_chain l (map to_chain_v2 ds))
  \/ (~ Forall chain_fits l /\ each to_chain l = Threw).
Proof.
  induction l as [|h l IH]; [left; split; [constructor|exists []; split; [reflexivity|constructor]]|].
  cbn [each]. destruct (to_chain_cases h) as [[F [c [-> S]]]|[F ->]].
  - cbn [bind]. destruct IH as [[G [cs [-> T]]]|[G ->]]; cbn [bind].
    + left. split; [constructor; assumption|]. exists (c :: cs). split; [reflexivity|].
      cbn. constructor; assumption.
    + right. split; [|reflexivity]. intros X. apply Forall_cons_iff in X. tauto.
  - right. split; [|reflexivity]. intros X. apply Forall_cons_iff in X. tauto.
Qed.

Lemma kinds_cases : forall l,
  (~ In VOEMRoot l /\ exists ms, each from_kind (map from_kind_v2 l) = Ok ms /\
     map purpose_m ms = map purpose_v l)
  \/ (In VOEMRoot l /\ each from_kind (map from_kind_v2 l) = Threw).
Proof.
  induction l as [|k l IH]; [left; split; [intros []|exists []; auto]|].
  cbn [map each]. destruct (from_kind (from_kind_v2 k)) as [m| |] eqn:E.
  - cbn [bind]. destruct IH as [[N [ms [-> M]]]|[N ->]]; cbn [bind].
    + left. split.
      * intros [->|X]; [discriminate E|contradiction].
      * exists (m :: ms). split; [reflexivity|]. cbn. rewrite M. f_equal.
        destruct k; cbn in E; try discriminate E; injection E as <-; reflexivity.
    + right. split; [right; exact N|reflexivity].
  - right. split; [left; destruct k; cbn in E; congruence|reflexivity].
  - destruct k; discriminate E.
Qed.

Lemma same_hash_back : forall m v, same_hash m v -> from_hash (from_hash_v2 v) = m.
Proof.
  intros [a n k s] [a' n' k' s'] [A [B [C D]]]. cbn in *. subst.
  unfold from_hash, from_hash_v2. cbn. destruct a, a'; try discriminate A; reflexivity.
Qed.

Lemma ocsp_one : forall o, ocsp_fits o -> mo_hash o <> None ->
  exists v, to_ocsp_v2 (to_ocsp o) = Ok v /\ same_ocsp o v.
Proof.
  intros [h u] [F U] N. cbn in *. destruct h as [[a n k s]|]; [|congruence].
  destruct (F _ eq_refl) as [F1 [F2 F3]]. cbn in F1, F2, F3.
  unfold to_ocsp_v2, to_ocsp. cbn [mo_hash mo_url co_name co_key co_serial co_url co_alg m_alg m_name m_key m_serial].
  rewrite !ci_ok by assumption. cbn [bind].
  rewrite ci_ok.
  - cbn [bind]. eexists. split; [reflexivity|]. eexists. split; [reflexivity|]. cbn.
    destruct a; cbn; repeat split.
  - destruct u as [u|]; [apply U; reflexivity|cbn; lia].
Qed.
