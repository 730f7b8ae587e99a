(** Lemmas for CfgProperties.v: what a change leaves behind. *)
From Coq Require Import ZArith List Bool String Ascii Lia.
From Verif Require Import StrModel StrSpec StrProofs StrProperties JsonModel JsonProofs DtModel CfgSchemaLang CfgModel CfgSchema CfgTables CfgApi CfgSpec CfgProofs CfgProofs2 CfgProofs3.
Import ListNotations.
Local Open Scope list_scope.
Local Open Scope string_scope.
Local Open Scope Z_scope.

(** The key can be tried: it is known, or the key for the authorization. *)
Definition tried (key : string) (v : option kv) : Prop :=
  (exists k, v = Some k /\ (kv_readonly k = false \/ key = "AuthorizationKey")) \/ key = "AuthorizationKey".

Lemma ne_false key : ci_ne key "AuthorizationKey" = false -> key = "AuthorizationKey".
Proof. unfold ci_ne. intros H. apply negb_false_iff in H. unfold str_eq in H. apply String.eqb_eq in H. exact H. Qed.

Lemma change_inv w x key text asked x' e res :
  change w x key text asked = (x', e, res) ->
  (x' = x /\ ((exists why, res = Throws why) \/ exists s, res = Ret (s, true) /\ (s = Rejected \/ s = NotSupported))) \/
  exists v s0, get w x key = Ret v /\ tried key v /\ set w x key text = Ret (s0, x') /\
    match s0 with
    | Some Accepted => snd (react w x' key text asked) = res
    | Some s => res = Ret (s, true)
    | None => res = Ret (Rejected, true)
    end.
Proof.
  unfold change. destruct (get w x key) as [v|why] eqn:G; [|intros H; injection H as <- <- <-; eauto 6].
  destruct (match v with Some _ => true | None => ci_eq key "AuthorizationKey" end) eqn:K;
    [|intros H; injection H as <- <- <-; left; eauto 6].
  assert (Q : forall r,
    match set w x key text with
    | Ret (Some Accepted, x0) =>
        let (e0, r) := react w x0 key text asked in
        match r with
        | Ret (s', open) => (x0, (e0 ++ notify w s' key text)%list, Ret (s', open))
        | Throws why => (x0, e0, Throws why)
        end
    | Ret (Some s', x0) => (x0, ([] ++ notify w s' key text)%list, Ret (s', true))
    | Ret (None, x0) => (x0, ([] ++ notify w Rejected key text)%list, Ret (Rejected, true))
    | Throws e0 => (x, [], Throws e0)
    end = (x', e, res) -> r = v -> tried key v ->
    (x' = x /\ ((exists why, res = Throws why) \/ exists s, res = Ret (s, true) /\ (s = Rejected \/ s = NotSupported))) \/
    exists v0 s0, Ret v = Ret v0 /\ tried key v0 /\ set w x key text = Ret (s0, x') /\
      match s0 with
      | Some Accepted => snd (react w x' key text asked) = res
      | Some s => res = Ret (s, true)
      | None => res = Ret (Rejected, true)
      end).
  { intros r H _ T. destruct (set w x key text) as [[s0 x0]|why] eqn:S; [|injection H as <- <- <-; left; eauto 6].
    right. exists v, s0. split; [reflexivity|]. split; [exact T|].
    destruct s0 as [[]|]; try (injection H as <- <- <-; auto).
    destruct (react w x0 key text asked) as [e0 [[s' open]|why]] eqn:R; injection H as <- <- <-; rewrite R; auto. }
  destruct (ci_ne key "AuthorizationKey") eqn:N.
  - destruct v as [k|]; [|intros H; injection H as <- <- <-; left; eauto 6].
    destruct (kv_readonly k) eqn:RO; [intros H; injection H as <- <- <-; left; eauto 6|].
    intros H. apply (Q (Some k) H); auto. left. eauto.
  - apply ne_false in N. intros H. apply (Q v H); auto. right. exact N.
Qed.

Lemma tried_some key v : tried key v -> v <> None \/ ci_eq key "AuthorizationKey" = true.
Proof.
  intros [(k & -> & _)| ->]; [left; discriminate|right; reflexivity].
Qed.

(** What set stores, for a key with a setter of its own. *)
Lemma set_stored w x key text v s0 x' :
  ordinary x key -> get w x key = Ret v -> tried key v -> set w x key text = Ret (s0, x') ->
  (exists wr t j, In (Wanted wr) writers /\ writer_facts wr t /\ ci_eq key (w_match wr) = true /\ means (w_key wr) t text j /\
     apply_rule w x (w_rule wr) text = Ret (Store j (match s0 with Some s => s | None => Rejected end)) /\
     (s0 = Some Accepted \/ s0 = Some RebootRequired) /\
     stands_in x (w_section wr) /\ x' = store w x (w_section wr) (w_key wr) j) \/
  (x' = x /\ (s0 = Some Rejected \/ s0 = Some NotSupported \/ s0 = None)).
Proof.
  intros (O1 & O2 & O3) G T S. pose proof (set_is w x key text) as C. rewrite S in C. inversion C as [wr I E Q|P Q|P Q|P Q|Q].
  - destruct (facts wr I) as (t & F). unfold as_set in Q. destruct (write w x wr text) as [[s x0]|] eqn:W; [|discriminate Q].
    injection Q as <- <-. destruct (write_cases _ _ _ _ _ _ _ F W) as [(j & M & St & A & P & Gd & ->)|[(-> & St)|(-> & P & Gd & L)]].
    + left. exists wr, t, j. split; [exact I|]. split; [exact F|]. split; [exact E|]. split; [exact M|]. split; [exact A|].
      split; [destruct St; subst; auto|]. split; [|reflexivity].
      exact (written_stands _ _ _ _ _ _ F E O2 G (tried_some _ _ T)).
    + right. split; [reflexivity|]. destruct St; subst; auto.
    + exfalso. pose proof (get_absent w _ _ _ _ F E O2 P Gd L) as N. rewrite N in G. injection G as <-.
      destruct T as [(k & T & _)|T]; [discriminate T|]. subst key.
      assert (D : w_rule wr <> RAuthorizationKey).
      { intros R. apply (wf_secret _ _ F) in R. destruct R as (_ & _ & R). congruence. }
      destruct (wf_reader _ _ F D) as (N2 & _). rewrite <- (wf_key _ _ F), ci_sym, E in N2. discriminate N2.
  - exfalso. apply O1. apply starts_with_ok. exact P.
  - exfalso. apply P. rewrite held_lookup. exact O2.
  - exfalso. apply O3. apply ci_same. exact P.
  - right. auto.
Qed.

Lemma change_accepted w x key text asked x' e s o :
  ordinary x key -> change w x key text asked = (x', e, Ret (s, o)) -> s = Accepted \/ s = RebootRequired ->
  exists wr t j, In (Wanted wr) writers /\ writer_facts wr t /\ ci_eq key (w_match wr) = true /\ means (w_key wr) t text j /\
    apply_rule w x (w_rule wr) text = Ret (Store j s) /\ stands_in x (w_section wr) /\ x' = store w x (w_section wr) (w_key wr) j.
Proof.
  intros O C S. destruct (change_inv _ _ _ _ _ _ _ _ C) as [(-> & [(why & H)|(s' & H & Q)])|(v & s0 & G & T & St & R)].
  - discriminate H.
  - injection H as <- <-. destruct S, Q; subst; discriminate.
  - destruct (set_stored _ _ _ _ _ _ _ O G T St) as [(wr & t & j & I & F & E & M & A & Q & D & X)|(X & Q)].
    + exists wr, t, j. repeat (split; [assumption|]). split; [|split; assumption].
      destruct Q as [-> | ->].
      * cbn in A. assert (s = Accepted); [|subst; exact A].
        destruct (react w x' key text asked) as [e' res] eqn:RE. cbn [snd] in R. subst res.
        destruct (react_status _ _ _ _ _ _ _ _ RE) as [H|H]; [exact H|]. exfalso. apply (proj2 (proj2 O)). apply ci_same. exact H.
      * injection R as ->. exact A.
    + exfalso. destruct Q as [-> |[-> | ->]]; injection R as -> ->; destruct S; discriminate.
Qed.
