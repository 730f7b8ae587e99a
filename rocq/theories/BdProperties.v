(** C125: allowed energy transfer, charging needs and DataTransfer of an OCPP 2.x station. *)
From Coq Require Import String ZArith List Bool.
From Verif Require Import StrModel StrSpec StrProofs BdModel BdSpec BdProofs.
Import ListNotations.
Local Open Scope string_scope.
Local Open Scope list_scope.
Local Open Scope Z_scope.

Ltac open := unfold handle_transfer;
  destruct (get_transaction_evseid _ _) as [e|] eqn:G;
  [ destruct (value_or_false (v2x_enabled _ e)) eqn:V; cbn [negb];
    [ destruct (match protocol_agreed _ e with Some p => contains iso20 p | None => false end) eqn:P; cbn [negb];
      [ destruct (value_or_false (renegotiation _ e)) eqn:R; cbn [negb] | ] | ] | ].
Ltac facts :=
  repeat match goal with
  | H : get_transaction_evseid _ _ = Some _ |- _ => apply evseid_spec in H
  | H : value_or_false _ = true |- _ => apply true_spec in H
  | H : match _ with Some p => contains iso20 p | None => false end = true |- _ => apply speaks_spec in H
  end.

(** In OCPP 2.1 every request is answered once, after the application was asked. *)
Theorem C125_answered : forall evses c r, exists before a, handle_transfer V21 evses c r = before ++ [a] /\ answers a /\
  (before = [] \/ before = [Ask (t_allowed r) (t_transaction r)]).
Proof.
  intros evses c r. open; try (exists [], (Rejected "UnsupportedRequest"); cbn; auto; fail);
    try (exists [], (Rejected "InvalidValue"); cbn; auto; fail).
  destruct (callback c) as [f|]; [|exists [], (Rejected "InternalError"); cbn; auto].
  exists [Ask (t_allowed r) (t_transaction r)]. destruct (f _ _); [exists Accepted|exists (Rejected "InternalError")]; cbn; auto.
Qed.
Print Assumptions C125_answered.

(** The application is asked iff the transaction runs at an EVSE with V2X where the service can be renegotiated. *)
Theorem C125_asked : forall evses c r x t, In (Ask x t) (handle_transfer V21 evses c r) <->
  possible evses c r /\ callback c <> None /\ x = t_allowed r /\ t = t_transaction r.
Proof.
  intros evses c r x t. open.
  - facts. destruct (callback c) as [f|] eqn:C.
    + split.
      * intros [[= <- <-]|I]; [|destruct (f _ _); destruct I as [I|[]]; discriminate].
        split; [exists e; auto|]. split; [discriminate|auto].
      * intros (_ & _ & -> & ->). left. reflexivity.
    + split; [intros [X|[]]; discriminate|]. intros (_ & N & _). congruence.
  - split; [intros [X|[]]; discriminate|]. intros ((n & A & B & D & E) & _). apply evseid_spec in A. rewrite A in G. injection G as ->.
    apply true_spec in E. congruence.
  - split; [intros [X|[]]; discriminate|]. intros ((n & A & B & D & E) & _). apply evseid_spec in A. rewrite A in G. injection G as ->.
    apply speaks_spec in D. congruence.
  - split; [intros [X|[]]; discriminate|]. intros ((n & A & B & D & E) & _). apply evseid_spec in A. rewrite A in G. injection G as ->.
    apply true_spec in B. congruence.
  - split; [intros [X|[]]; discriminate|]. intros ((n & A & B & D & E) & _). apply evseid_spec in A. congruence.
Qed.
Print Assumptions C125_asked.

(** It is Accepted iff the application was asked and agreed. *)
Theorem C125_accepted : forall evses c r, In Accepted (handle_transfer V21 evses c r) <->
  possible evses c r /\ exists f, callback c = Some f /\ f (t_allowed r) (t_transaction r) = true.
Proof.
  intros evses c r. open; try (split; [intros [X|[]]; discriminate|]; intros ((n & A & B & D & E) & _); apply evseid_spec in A;
    rewrite A in G; injection G as ->; apply true_spec in B, E; apply speaks_spec in D; congruence).
  - facts. destruct (callback c) as [f|] eqn:C.
    + destruct (f (t_allowed r) (t_transaction r)) eqn:F.
      * split; [|intros _; right; left; reflexivity]. intros _. split; [exists e; auto|exists f; auto].
      * split; [intros [X|[X|[]]]; discriminate|]. intros (_ & g & [= <-] & X). congruence.
    + split; [intros [X|[]]; discriminate|]. intros (_ & g & X & _). discriminate.
  - split; [intros [X|[]]; discriminate|]. intros ((n & A & _) & _). apply evseid_spec in A. congruence.
Qed.
Print Assumptions C125_accepted.

(** Which reason a refusal has. *)
Theorem C125_reason : forall evses c r w, In (Rejected w) (handle_transfer V21 evses c r) <->
  (w = "InvalidValue" /\ no_v2x evses c r) \/
  (w = "UnsupportedRequest" /\ exists e, RunsAt (t_transaction r) evses e /\ v2x_enabled c e = Some true /\ no_renegotiation c e) \/
  (w = "InternalError" /\ possible evses c r /\ forall f, callback c = Some f -> f (t_allowed r) (t_transaction r) = false).
Proof.
  intros evses c r w. open.
  - facts. split.
    + intros I. right. right. destruct (callback c) as [f|] eqn:C.
      * destruct I as [I|I]; [discriminate|]. destruct (f _ _) eqn:F; destruct I as [I|[]]; [discriminate|]. injection I as <-.
        split; [reflexivity|]. split; [exists e; auto|]. intros g [= <-]. exact F.
      * destruct I as [I|[]]. injection I as <-. split; [reflexivity|]. split; [exists e; auto|]. discriminate.
    + intros [(_ & N)|[(_ & n & A & B & [D|D])|(-> & _ & F)]].
      * exfalso. apply (N e); auto.
      * assert (n = e) by (eapply runs_one; eassumption). subst. contradiction.
      * assert (n = e) by (eapply runs_one; eassumption). subst. contradiction.
      * destruct (callback c) as [f|]; [right; rewrite (F f) by reflexivity|]; left; reflexivity.
  - facts. assert (NR : renegotiation c e <> Some true) by (intros X; apply true_spec in X; congruence). split.
    + intros [[= <-]|[]]. right. left. split; [reflexivity|]. exists e. split; [exact G|]. split; [exact V|]. right. exact NR.
    + intros [(_ & N)|[(-> & _)|(_ & (n & A & B & D & E) & _)]]; [exfalso; apply (N e); auto|left; reflexivity|].
      assert (n = e) by (eapply runs_one; eassumption). subst. contradiction.
  - facts. assert (NP : ~ speaks_iso20 (protocol_agreed c e)) by (intros X; apply speaks_spec in X; congruence). split.
    + intros [[= <-]|[]]. right. left. split; [reflexivity|]. exists e. split; [exact G|]. split; [exact V|]. left. exact NP.
    + intros [(_ & N)|[(-> & _)|(_ & (n & A & B & D & E) & _)]]; [exfalso; apply (N e); auto|left; reflexivity|].
      assert (n = e) by (eapply runs_one; eassumption). subst. contradiction.
  - facts. assert (NV : v2x_enabled c e <> Some true) by (intros X; apply true_spec in X; congruence). split.
    + intros [[= <-]|[]]. left. split; [reflexivity|]. intros n A. assert (n = e) by (eapply runs_one; eassumption). subst. exact NV.
    + intros [(-> & _)|[(_ & n & A & B & _)|(_ & (n & A & B & _) & _)]]; [left; reflexivity| |];
        assert (n = e) by (eapply runs_one; eassumption); subst; contradiction.
  - assert (NE : forall n, ~ RunsAt (t_transaction r) evses n) by (intros n A; apply evseid_spec in A; congruence). split.
    + intros [[= <-]|[]]. left. split; [reflexivity|]. intros n A. destruct (NE n A).
    + intros [(-> & _)|[(_ & n & A & _)|(_ & (n & A & _) & _)]]; [left; reflexivity|destruct (NE n A)|destruct (NE n A)].
Qed.
Print Assumptions C125_reason.

Definition settings : setting :=
  Setting (fun e => if e =? 2 then Some true else None)
          (fun e => Some (if e =? 2 then "urn:iso:std:iso:15118:-20:AC" else "urn:din:70121:2012:MsgDef"))
          (fun _ => Some true) (Some (fun l _ => match l with [] => false | _ => true end)).
Definition two_evses : list evse := [Evse 1 (Some "t1"); Evse 2 (Some "t2"); Evse 3 None].
Example C125_case :
  handle_transfer V21 two_evses settings (TransferReq "t2" [4; 5]) = [Ask [4; 5] "t2"; Accepted] /\
  handle_transfer V21 two_evses settings (TransferReq "T2" []) = [Ask [] "T2"; Rejected "InternalError"] /\
  handle_transfer V21 two_evses settings (TransferReq "t1" [4]) = [Rejected "InvalidValue"] /\
  handle_transfer V21 two_evses settings (TransferReq "t3" [4]) = [Rejected "InvalidValue"].
Proof. vm_compute. auto. Qed.

(** Over an OCPP 2.0.1 connection the request gets no answer at all. *)
Theorem C125_silent_refuted : exists v evses c r, possible evses c r /\ handle_transfer v evses c r = [].
Proof.
  exists V201, two_evses, settings, (TransferReq "t2" [4; 5]). split; [|reflexivity].
  exists 2. split; [apply evseid_spec; reflexivity|].
  split; [reflexivity|]. split; [exists "", ":AC"; reflexivity|reflexivity].
Qed.
Print Assumptions C125_silent_refuted.

(** The refusal of an EV's needs stops the transaction iff it is bidirectional, in OCPP 2.1; nothing else does. *)
Theorem C125_needs : forall v e v2x s n, v = V201 \/ v = V21 ->
  (needs_answered v e v2x s = Some n <-> n = e /\ v = V21 /\ v2x = true /\ s = NRejected).
Proof.
  intros v e v2x s n [-> | ->]; destruct s, v2x; cbn; split; try discriminate; try (intros (_ & ? & ? & ?); discriminate).
  - intros [= <-]. auto.
  - intros (-> & _). reflexivity.
Qed.
Print Assumptions C125_needs.
Example C125_needs_case : needs_answered V21 3 true NRejected = Some 3 /\ needs_answered V201 3 true NRejected = None /\
  needs_answered V21 3 false NRejected = None /\ needs_answered V21 3 true NNoProfile = None.
Proof. auto. Qed.

(** The application gets the CSMS's answer as it is, nothing if there was none that could be read, Rejected for a CALLERROR. *)
Theorem C125_data_out : forall a r, fst (data_transfer_req a) = Some r <->
  a = Result (Some r) \/ (a = Error /\ r = DtResponse DRejected None).
Proof.
  intros a r. destruct a as [| |[x|]|]; cbn; split; try discriminate; try (intros [E|[E _]]; discriminate).
  - intros [= ->]. auto.
  - intros [[= ->]|[E _]]; [reflexivity|discriminate].
  - intros [= <-]. auto.
  - intros [E|[_ ->]]; [discriminate|reflexivity].
Qed.
Print Assumptions C125_data_out.
Example C125_data_out_case : fst (data_transfer_req (Result (Some (DtResponse DAccepted (Some "x"))))) = Some (DtResponse DAccepted (Some "x")).
Proof. reflexivity. Qed.

(** A CALLERROR is sent although no CALL was received: as the answer to an answer that cannot be read. *)
Theorem C125_error_refuted : exists a, snd (data_transfer_req a) = true.
Proof. exists (Result None). reflexivity. Qed.
Print Assumptions C125_error_refuted.
