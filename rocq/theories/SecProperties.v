(** Certificates of an OCPP 2.x station: requests to sign them (C84) and their installation (C85). *)
From Coq Require Import ZArith String List Bool Lia.
From Verif Require Import SecModel SecSpec SecProofs SecProofs2 SecProofs3.
Import ListNotations.
Local Open Scope Z_scope.

(** A station with everything configured, repeating at most twice after waiting at least 10 seconds. *)
Definition demo : config :=
  Config 3 (Some "cp1"%string) (Some "Pionix"%string) (Some "DE"%string) None (Some "secc"%string) (Some "V2GOrg"%string) (Some true)
         (Some 10) (Some 2) (Some true) (Some true) None (Some false).
Definition csr := Some "csr"%string.

(** ** C84 *)

(** A second SignCertificate.req is only put out by the timer of the first, or after the first was settled. *)
Theorem C84_one_request_at_a_time : forall cb h t1 e1 t2 e2 t3,
  trace (init cb) h = t1 ++ e1 :: t2 ++ e2 :: t3 -> asks e1 -> asks e2 ->
  by_timer e2 \/ Exists settles t2.
Proof. intros cb h t1 e1 t2 e2 t3 H A B. exact (one_at_a_time _ _ _ _ _ _ _ H A B). Qed.
Print Assumptions C84_one_request_at_a_time.
Example C84_one_request_at_a_time_ex :
  exists t1 e1 t2 e2 t3,
    trace (init true) [(demo, Sign Station true csr); (demo, Sign V2G true csr); (demo, Conf false); (demo, Expiry V2G 3 csr)]
      = t1 ++ e1 :: t2 ++ e2 :: t3 /\ asks e1 /\ asks e2 /\ ~ by_timer e2.
Proof.
  eexists [], _, [_; _], _, []. split; [vm_compute; reflexivity|].
  split; [exists Station, "csr"%string, true; cbn; auto|]. split; [exists V2G, "csr"%string, false; cbn; auto|].
  intros (c & Q). discriminate Q.
Qed.

(** A request made by the timer comes after the timer was set, and not stopped or used since. *)
Theorem C84_repeated_only_after_waiting : forall cb h t1 e t2,
  trace (init cb) h = t1 ++ e :: t2 -> by_timer e -> asks e ->
  exists u1 e1 u2, t1 = u1 ++ e1 :: u2 /\ sets_timer e1 /\ Forall (fun e => ~ clears_timer e) u2.
Proof. exact repeat_after_timer. Qed.
Print Assumptions C84_repeated_only_after_waiting.
Example C84_repeated_only_after_waiting_ex :
  exists t1 e t2, trace (init true) [(demo, Sign Station true csr); (demo, Conf true); (demo, Fires csr)] = t1 ++ e :: t2
    /\ by_timer e /\ asks e.
Proof.
  eexists [_; _], _, []. split; [vm_compute; reflexivity|]. split; [eexists; reflexivity|].
  exists Station, "csr"%string, false. cbn. auto.
Qed.

(** Without a request made afresh, at most CertSigningRepeatTimes requests are put out. *)
Theorem C84_repeats_are_bounded : forall n cb h t1 t2 t3,
  Forall (fun x => match g_repeat (fst x) with Some m => m <= n | None => True end) h ->
  trace (init cb) h = t1 ++ t2 ++ t3 ->
  Forall (fun e => ~ (asks e /\ ~ by_timer e)) t2 ->
  Z.of_nat (requests t2) <= Z.max 0 n.
Proof. exact repeats_bounded. Qed.
Print Assumptions C84_repeats_are_bounded.
(** As many are made if the CSMS accepts each request and sends no certificate. *)
Definition patient : list (config * op) :=
  [(demo, Sign Station true csr); (demo, Conf true); (demo, Fires csr); (demo, Conf true); (demo, Fires csr); (demo, Conf true);
   (demo, Fires csr)].
Example C84_repeats_are_bounded_ex :
  requests (trace (init true) patient) = 3%nat /\ requests (tl (trace (init true) patient)) = 2%nat.
Proof. vm_compute. auto. Qed.

(** The station waits at least twice the configured time, at least 500 seconds, and twice as long after each repetition. *)
Theorem C84_waits_double : forall w cb h,
  Forall (fun x => g_wait (fst x) = Some w) h ->
  (forall t1 e t2 b, trace (init cb) h = t1 ++ e :: t2 -> In (OTimer b) (snd e) ->
     Z.min 2147483647 (2 * Z.max 250 w) <= b <= 2147483647
     /\ (Forall (fun e => ~ by_timer e) t1 -> b = Z.min 2147483647 (2 * Z.max 250 w)))
  /\ (forall t1 e1 u e v e2 t3 b1 b2,
        trace (init cb) h = t1 ++ e1 :: u ++ e :: v ++ e2 :: t3 ->
        In (OTimer b1) (snd e1) -> In (OTimer b2) (snd e2) ->
        by_timer e -> asks e ->
        Forall (fun e => match fst e with Conf _ | Signed _ _ _ | Fires _ => False | _ => True end) (u ++ v) ->
        b2 = Z.min 2147483647 (2 * b1)).
Proof.
  intros w cb h W. split.
  - intros t1 e t2 b H I.
    destruct (trace_split _ _ _ _ H) as (h1 & h2 & -> & -> & H2). symmetry in H2.
    destruct (trace_split1 _ _ _ _ H2) as (x1 & h3 & -> & -> & _).
    destruct (timer_entry _ _ _ I) as (_ & _ & _ & w1 & E & ->).
    assert (w1 = w). { rewrite Forall_forall in W. assert (g_wait (fst x1) = Some w) by (apply W; rewrite in_app_iff; cbn; auto). congruence. }
    subst w1. assert (P : 1 <= k_attempt (state (init cb) h1)) by (apply attempt_pos; cbn; lia).
    split; [split; [exact (backoff_least w _ P)|]|].
    + unfold backoff, int_max. destruct (_ <=? 2147483647) eqn:Q; [apply Z.leb_le in Q; lia|lia].
    + intros N. rewrite (attempt_first h1 (init cb) eq_refl N). unfold backoff, int_max. change (2 ^ 1) with 2.
      destruct (Z.max 250 w * 2 <=? 2147483647) eqn:Q; [apply Z.leb_le in Q|apply Z.leb_gt in Q]; lia.
  - intros t1 e1 u e v e2 t3 b1 b2 H I1 I2 T A K. apply Forall_app in K. destruct K as [U V].
    exact (waits_double w cb h t1 e1 u e v e2 t3 b1 b2 W H I1 I2 T A U V).
Qed.
Print Assumptions C84_waits_double.
Example C84_waits_double_ex :
  map snd (trace (init true) patient)
  = [[OGenerate Station "DE" "Pionix" "cp1" false; OSign Station "csr" true]; [OTimer 500];
     [OGenerate Station "DE" "Pionix" "cp1" false; OSign Station "csr" false]; [OTimer 1000];
     [OGenerate Station "DE" "Pionix" "cp1" false; OSign Station "csr" false]; []; []].
Proof. vm_compute. reflexivity. Qed.

(** Every request put out asks for a certificate with the configured names, of the kind wanted. *)
Theorem C84_requests_follow_the_configuration : forall cb h c o u r tr,
  In (OSign u r tr) (snd (step (state (init cb) h) (c, o))) ->
  exists u0 country org common tpm,
    snd (step (state (init cb) h) (c, o)) = [OGenerate u0 country org common tpm; OSign u r tr]
    /\ configured c u0 country org common tpm
    /\ (u = Station <-> u0 = Station)
    /\ match o with
       | Sign u' tr' g => u0 = u' /\ tr = tr' /\ g = Some r
       | Expiry u' d g => (u0 = Station <-> u' = Station) /\ tr = false /\ g = Some r /\ d < 30
                          /\ (u' = Station \/ g_v2g c = Some true)
       | Fires g => tr = false /\ g = Some r
       | _ => False
       end.
Proof.
  intros cb h c o u r tr I. destruct (step (state (init cb) h) (c, o)) as [s' outs] eqn:E. cbn [snd] in *.
  destruct (step_effect _ _ _ _ E) as [(_ & _ & ->)|(_ & F)]; [destruct I|]. cbn [fst snd] in F.
  inversion F; subst; try (destruct I; fail); try (exfalso; eapply quiet_asks with (o := o); [eassumption|exists u, r, tr; exact I]; fail);
    try (exfalso; match goal with Q : quiet _ |- _ => exact (proj1 Q _ _ _ I) end).
  - destruct I as [I|[I|[]]]; [discriminate I|]. inversion I; subst.
    exists u0, country, org, common, tpm. split; [reflexivity|]. split; [assumption|]. split; [destruct u0; cbn; split; congruence|].
    destruct o; try contradiction.
    + destruct H as (-> & -> & ->). auto.
    + destruct H as (<- & -> & -> & D & V). split; [destruct u; cbn; split; congruence|]. auto.
  - destruct I as [I|[]]; discriminate I.
  - destruct I as [I|[I|[]]]; [discriminate I|]. inversion I; subst.
    exists u0, country, org, common, tpm. split; [reflexivity|]. split; [assumption|]. split; [destruct u0; cbn; split; congruence|]. auto.
Qed.
Print Assumptions C84_requests_follow_the_configuration.

(** When the last request is settled, a request is made as soon as it is asked for or a certificate is about to expire,
    provided the names are configured and the key can be generated. *)
Theorem C84_requests_are_made_when_due : forall cb h c u tr r country org common tpm,
  in_order (trace (init cb) h) -> settled (trace (init cb) h) ->
  configured c u country org common tpm ->
  (exists u', In (OSign u' r tr) (snd (step (state (init cb) h) (c, Sign u tr (Some r)))) /\ (u' = Station <-> u = Station))
  /\ (forall d, d < 30 -> u = Station \/ (u = V2G /\ g_v2g c = Some true) ->
        In (OSign u r false) (snd (step (state (init cb) h) (c, Expiry u d (Some r))))).
Proof.
  intros cb h c u tr r country org common tpm O S G.
  assert (A : k_gone (state (init cb) h) = false) by (apply orderly_all; exact O).
  pose proof (settled_free cb h A S) as N. unfold step. rewrite A. cbn [fst snd exec]. split.
  - exists (asked_for u). rewrite (sign_goes c u tr r _ _ _ _ _ N G). split; [cbn; auto|]. destruct u; cbn; split; congruence.
  - intros d D V. unfold check_expiry. assert (E : (d <? 30) = true) by (apply Z.ltb_lt; exact D).
    destruct V as [-> | [-> V]]; [|rewrite V; cbn [or_else]]; rewrite E, (sign_goes c _ false r _ _ _ _ _ N G); cbn; auto.
Qed.
Print Assumptions C84_requests_are_made_when_due.
Example C84_requests_are_made_when_due_ex :
  settled (trace (init true) [(demo, Sign V2G true csr); (demo, Conf true); (demo, Signed (Some V2G) "chain"%string Installed)])
  /\ in_order (trace (init true) [(demo, Sign V2G true csr); (demo, Conf true); (demo, Signed (Some V2G) "chain"%string Installed)])
  /\ configured demo V2G "DE" "V2GOrg" "secc" true.
Proof.
  split; [|split].
  - right. eexists [_; _], _, []. split; [vm_compute; reflexivity|]. split; [constructor|]. exact Logic.I.
  - intros t1 e t2 H. vm_compute in H.
    destruct t1 as [|a [|b [|d [|x y]]]]; cbn in H; inversion H; subst; cbn; auto.
  - unfold configured. cbn. tauto.
Qed.

(** As long as no certificate arrives before its request was answered, the callback of the timer never fails. *)
Theorem C84_process_survives : forall cb h, in_order (trace (init cb) h) -> k_gone (state (init cb) h) = false.
Proof. intros cb h O. apply orderly_all. exact O. Qed.
Print Assumptions C84_process_survives.
(** Otherwise it can: the certificate arrives before the answer, a second request is made, the late answer to the first sets
    the timer, the second request is rejected, and the timer finds nothing awaited. *)
Theorem C84_process_survives_refuted :
  exists h, k_gone (state (init true) h) = true /\
    map snd h = [Sign Station true csr; Signed None "chain"%string Installed; Sign V2G true csr; Conf true; Conf false; Fires csr].
Proof.
  exists (map (pair demo) [Sign Station true csr; Signed None "chain"%string Installed; Sign V2G true csr; Conf true; Conf false; Fires csr]).
  vm_compute. auto.
Qed.
Print Assumptions C84_process_survives_refuted.

(** A request that is never answered blocks all further ones until a certificate arrives. *)
Theorem C84_lost_answers_are_recovered_refuted :
  exists h, requests (trace (init true) h) = 1%nat /\
    forall h', Forall (fun x => forall t c r, snd x <> Signed t c r) h' ->
      requests (trace (state (init true) h) h') = O.
Proof.
  exists [(demo, Sign Station true csr); (demo, Lost)]. split; [vm_compute; reflexivity|].
  intros h' N. apply stuck_all; [|exact N]. unfold stuck. vm_compute. repeat split. discriminate.
Qed.
Print Assumptions C84_lost_answers_are_recovered_refuted.
(** So does an accepted one when CertSigningWaitMinimum or CertSigningRepeatTimes is not configured. *)
Theorem C84_accepted_without_timer_is_recovered_refuted :
  exists c h, requests (trace (init true) h) = 1%nat /\ g_repeat c = None /\ h = [(c, Sign Station true csr); (c, Conf true)] /\
    forall h', Forall (fun x => forall t c r, snd x <> Signed t c r) h' ->
      requests (trace (state (init true) h) h') = O.
Proof.
  exists (Config 3 (Some "cp1"%string) (Some "Pionix"%string) (Some "DE"%string) None None None None (Some 10) None None None None None).
  eexists. split; [|split; [reflexivity|split; [reflexivity|]]]; [vm_compute; reflexivity|].
  intros h' N. apply stuck_all; [|exact N]. unfold stuck. vm_compute. repeat split. discriminate.
Qed.
Print Assumptions C84_accepted_without_timer_is_recovered_refuted.

(** A request made afresh is not always repeated as often as configured: the count of a series that ended because no key
    could be generated goes on. *)
Theorem C84_fresh_requests_are_repeated_in_full_refuted :
  exists h1 h2, h2 = [(demo, Sign Station true csr); (demo, Conf true); (demo, Fires csr); (demo, Conf true); (demo, Fires csr)]
    /\ requests (trace (init true) h2) = 3%nat
    /\ (exists e t, trace (state (init true) h1) h2 = e :: t /\ asks e /\ ~ by_timer e)
    /\ requests (trace (state (init true) h1) h2) = 2%nat.
Proof.
  exists [(demo, Sign Station true csr); (demo, Conf true); (demo, Fires None)]. eexists.
  split; [reflexivity|]. split; [vm_compute; reflexivity|]. split; [|vm_compute; reflexivity].
  eexists _, _. split; [vm_compute; reflexivity|]. split; [exists Station, "csr"%string, true; cbn; auto|].
  intros (c & Q). discriminate Q.
Qed.
Print Assumptions C84_fresh_requests_are_repeated_in_full_refuted.

(** A certificate for one use ends the wait for the certificate of the other use. *)
Theorem C84_each_use_is_awaited_refuted :
  exists t1 t2 t3 e1 e e2,
    trace (init true) (map (pair demo) [Sign Station true csr; Conf true; Signed (Some V2G) "chain"%string InvalidFormat;
                                        Fires csr; Sign V2G true csr])
      = t1 ++ e1 :: t2 ++ e :: t3 ++ [e2]
    /\ In (OSign Station "csr"%string true) (snd e1)
    /\ fst e = Signed (Some V2G) "chain"%string InvalidFormat
    /\ Forall (fun e => forall r t, ~ In (OSign Station r t) (snd e)) t3
    /\ In (OSign V2G "csr"%string true) (snd e2).
Proof.
  eexists [], [_], [_], _, _, _. split; [vm_compute; reflexivity|]. split; [cbn; auto|]. split; [reflexivity|].
  split; [constructor; [intros r t []|constructor]|]. cbn. auto.
Qed.
Print Assumptions C84_each_use_is_awaited_refuted.

(** ** C85 *)

Lemma permitted_ok : forall c t, should_allow c t = true <-> permitted c t.
Proof.
  intros c t. unfold should_allow, permitted. destruct (1 <? g_profile c) eqn:P.
  - apply Z.ltb_lt in P. split; auto. intros _. left. lia.
  - apply Z.ltb_ge in P. assert (N : ~ 2 <= g_profile c) by lia.
    destruct t; cbn; try (split; [intros _; right; exact Logic.I|reflexivity]).
    + destruct (g_allowcsms c) as [[|]|]; cbn; (split; [intros Q; try discriminate Q; right; discriminate|intros [Q|Q]; try contradiction; try reflexivity; destruct (Q eq_refl)]).
    + destruct (g_allowmf c) as [[|]|]; cbn; (split; [intros Q; try discriminate Q; right; discriminate|intros [Q|Q]; try contradiction; try reflexivity; destruct (Q eq_refl)]).
    + split; [intros Q; discriminate Q|intros [Q|Q]; contradiction].
Qed.

(** A root certificate reaches the store if and only if it may be installed, and unchanged; the request is answered once,
    with what the store said; the application is told of every change. *)
Theorem C85_roots_are_installed_exactly_as_permitted : forall s c t cert r, k_gone s = false ->
  let outs := snd (step s (c, Install t cert r)) in
  (permitted c t ->
     filter is_store outs = [OInstallCa cert t]
     /\ filter is_resp outs = [OInstallResp (match r with Installed => Accepted | WriteError => Failed | _ => Rejected end) false])
  /\ (~ permitted c t -> outs = [OInstallResp Rejected true])
  /\ (In (OTell ReconfigurationOfSecurityParameters) outs <-> k_cb s = true /\ permitted c t /\ r = Installed).
Proof.
  intros s c t cert r G outs. unfold outs, step. rewrite G. cbn [fst snd exec]. unfold handle_install, security_event, seqc, put, skip.
  pose proof (permitted_ok c t) as P. destruct (should_allow c t).
  - assert (P1 : permitted c t) by (apply P; reflexivity). cbn [negb].
    split; [|split].
    + intros _. destruct r, (k_cb s) eqn:Cb; cbn; rewrite ?Cb; cbn; auto.
    + intros N. contradiction.
    + destruct r, (k_cb s) eqn:Cb; cbn; rewrite ?Cb; cbn;
        (split; [intros I; repeat (destruct I as [I|I]; [try discriminate I|]); try contradiction; auto
                |intros (Q1 & _ & Q2); try discriminate Q1; try discriminate Q2; auto]).
  - assert (P1 : ~ permitted c t) by (intros Q; apply P in Q; discriminate Q). cbn.
    split; [contradiction|]. split; [reflexivity|]. split; [intros [I|[]]; discriminate I|intros (_ & Q & _); contradiction].
Qed.
Print Assumptions C85_roots_are_installed_exactly_as_permitted.
Example C85_roots_are_installed_exactly_as_permitted_ex :
  permitted (Config 1 None None None None None None None None None None None None (Some false)) CSMSRoot
  /\ ~ permitted (Config 1 None None None None None None None None None None None None (Some false)) ManufacturerRoot
  /\ permitted demo ManufacturerRoot.
Proof. unfold permitted. cbn. repeat split; try (right; discriminate); try lia. intros [Q|Q]; [lia|auto]. Qed.

(** A signed certificate is handed to the store for its use; the answer says whether the store took it; the station
    reconnects exactly if its own certificate changed under security profile 3; a V2G certificate taken renews the OCSP
    data; one not taken is reported. *)
Theorem C85_signed_certificates_take_effect : forall s c t chain r, k_gone s = false ->
  let outs := snd (step s (c, Signed t chain r)) in
  let own := t = None \/ t = Some Station in
  (own -> filter is_store outs = [OLeaf chain Station])
  /\ (~ own -> filter is_store outs = [OLeaf chain V2G])
  /\ filter is_resp outs = [OSignedResp (match r with Installed => Accepted | _ => Rejected end)]
  /\ (In OReconnect outs <-> own /\ r = Installed /\ g_profile c = 3)
  /\ (In OOcsp outs <-> ~ own /\ r = Installed)
  /\ (In (OLinks V2G) outs <-> ~ own /\ g_links c = Some true)
  /\ ((exists e, In (OEvent e) outs) <-> r <> Installed)
  /\ k_awaited (fst (step s (c, Signed t chain r))) = None
  /\ k_timer (fst (step s (c, Signed t chain r))) = None.
Proof.
  intros s c t chain r G outs own.
  assert (O : own \/ ~ own).
  { unfold own. destruct t as [[| |]|]; auto; right; intros [Q|Q]; discriminate Q. }
  assert (U : (own -> signed_use t = Station) /\ (~ own -> signed_use t = V2G)).
  { unfold own. destruct t as [[| |]|]; cbn; split; auto; intros Q; try (destruct Q as [Q|Q]; discriminate Q); exfalso; auto. }
  destruct U as [U1 U2]. unfold outs, step. rewrite G. cbn [fst snd exec].
  unfold handle_certificate_signed, security_event, seqc, put, skip.
  assert (I : is_installed r = true <-> r = Installed) by (destruct r; cbn; split; congruence).
  assert (P : (g_profile c =? 3) = true <-> g_profile c = 3) by apply Z.eqb_eq.
  assert (L : or_else (g_links c) false = true <-> g_links c = Some true) by (destruct (g_links c) as [[|]|]; cbn; split; congruence).
  replace (match r with Installed => Accepted | _ => Rejected end) with (if is_installed r then Accepted else Rejected) by (destruct r; reflexivity).
  clearbody own.
  assert (E : (signed_use t = Station /\ own) \/ (signed_use t = V2G /\ ~ own)) by (destruct O; auto).
  destruct E as [[-> W]|[-> W]]; clear U1 U2 O; cbn [is_station];
  (destruct (is_installed r); [assert (I1 : r = Installed) by (apply I; reflexivity)|assert (I1 : r <> Installed) by (intros Q; apply I in Q; discriminate Q)]);
  (destruct (g_profile c =? 3); [assert (P1 : g_profile c = 3) by (apply P; reflexivity)|assert (P1 : g_profile c <> 3) by (intros Q; apply P in Q; discriminate Q)]);
  (destruct (or_else (g_links c) false); [assert (L1 : g_links c = Some true) by (apply L; reflexivity)|assert (L1 : g_links c <> Some true) by (intros Q; apply L in Q; discriminate Q)]);
  clear I P L; destruct (k_cb s) eqn:Cb; cbn; rewrite ?Cb; cbn;
  (split; [intros; first [reflexivity|contradiction]|]);
  (split; [intros; first [reflexivity|contradiction]|]);
  (split; [reflexivity|]);
  (split; [split; [intros Q; repeat (destruct Q as [Q|Q]; [try discriminate Q|]); try contradiction; auto|intros (Q1 & Q2 & Q3); try contradiction; auto 12]|]);
  (split; [split; [intros Q; repeat (destruct Q as [Q|Q]; [try discriminate Q|]); try contradiction; auto|intros (Q1 & Q2); try contradiction; auto 12]|]);
  (split; [split; [intros Q; repeat (destruct Q as [Q|Q]; [try discriminate Q|]); try contradiction; auto|intros (Q1 & Q2); try contradiction; auto 12]|]);
  (split; [split; [intros (e & Q); repeat (destruct Q as [Q|Q]; [try discriminate Q|]); try contradiction; auto|intros Q1; try contradiction; try (eexists; auto 12)]|]);
  auto.
Qed.
Print Assumptions C85_signed_certificates_take_effect.
Example C85_signed_certificates_take_effect_ex :
  snd (step (init true) (demo, Signed None "chain"%string Installed))
    = [OLeaf "chain" Station; OSignedResp Accepted] ++ skipn 2 (snd (step (init true) (demo, Signed None "chain"%string Installed)))
  /\ k_gone (init true) = false /\ g_profile demo = 3 /\ g_links demo = Some true.
Proof. vm_compute. auto. Qed.

(** Deleting and listing: the store is asked for exactly what the CSMS asked for, and its answer is passed on. *)
Theorem C85_deleting_and_listing_answer_as_the_store : forall s c hash r l found, k_gone s = false ->
  let outs := snd (step s (c, Delete hash r)) in
  filter is_store outs = [ODelete hash]
  /\ filter is_resp outs = [ODeleteResp (match r with Deleted => Accepted | DeleteFailed => Failed | NotFound => SNotFound end)]
  /\ (In (OTell ReconfigurationOfSecurityParameters) outs <-> k_cb s = true /\ r = Deleted)
  /\ exists types, snd (step s (c, Ids l found)) = [OFetch types; OIdsResp (match found with [] => SNotFound | _ => Accepted end) found]
     /\ (l = None -> NoDup types /\ forall t, In t types <-> t <> TOEMRoot)
     /\ (forall l', l = Some l' -> Forall2 (fun t i => match i with
           | IV2GRoot => t = TV2GRoot | IMORoot => t = TMORoot | ICSMSRoot => t = TCSMSRoot | IV2GChain => t = TV2GChain
           | IManufacturerRoot => t = TMFRoot | IOEMRoot => t = TOEMRoot end) types l').
Proof.
  intros s c hash r l found G outs. unfold outs, step. rewrite G. cbn [fst snd exec].
  unfold handle_delete, handle_ids, security_event, seqc, put, skip.
  split; [destruct r, (k_cb s) eqn:Cb; cbn; rewrite ?Cb; reflexivity|].
  split; [destruct r, (k_cb s) eqn:Cb; cbn; rewrite ?Cb; reflexivity|].
  split.
  { destruct r, (k_cb s) eqn:Cb; cbn; rewrite ?Cb; cbn;
      (split; [intros Q; repeat (destruct Q as [Q|Q]; [try discriminate Q|]); try contradiction; auto
              |intros (Q1 & Q2); try discriminate Q1; try discriminate Q2; auto]). }
  eexists. split; [destruct found; reflexivity|]. split.
  - intros ->. split; [repeat constructor; cbn; intros Q; repeat (destruct Q as [Q|Q]; [try discriminate Q|]); contradiction|].
    intros t. split.
    + intros Q E. subst t. cbn in Q. repeat (destruct Q as [Q|Q]; [try discriminate Q|]). contradiction.
    + intros N. destruct t; cbn; auto 10; destruct (N eq_refl).
  - intros l' ->. induction l' as [|i l' IH]; constructor; [destruct i; reflexivity|exact IH].
Qed.
Print Assumptions C85_deleting_and_listing_answer_as_the_store.
Example C85_deleting_and_listing_answer_as_the_store_ex :
  snd (step (init true) (demo, Ids (Some [ICSMSRoot; IV2GChain]) ["a"%string]))
    = [OFetch [TCSMSRoot; TV2GChain]; OIdsResp Accepted ["a"%string]]
  /\ snd (step (init true) (demo, Ids (Some [IOEMRoot]) [])) = [OFetch [TOEMRoot]; OIdsResp SNotFound []].
Proof. vm_compute. auto. Qed.

(** The store is changed by no other call. *)
Theorem C85_store_is_changed_only_on_request : forall s c o,
  Exists (fun x => is_store x = true) (snd (step s (c, o))) ->
  match o with Signed _ _ _ | Install _ _ _ | Delete _ _ | Ids _ _ => True | _ => False end.
Proof.
  intros s c o H. unfold step in H. destruct (k_gone s); [inversion H|]. cbn [fst snd] in H.
  assert (S : forall u tr g s0, ~ Exists (fun x => is_store x = true) (snd (sign_certificate_req c u tr g s0))).
  { intros u tr g s0 E. unfold sign_certificate_req in E. destruct (k_awaited s0); [inversion E|].
    destruct (names c u) as [[[[cm|] [og|]] [co|]] tp]; try (inversion E; fail).
    destruct g; cbn in E; [|destruct (k_cb s0); cbn in E]; repeat (inversion E; subst; clear E; rename H1 into E; try discriminate E). }
  destruct o as [u tr g|u d g|ok| |g|t chain r|t cert r|h r|l found|]; cbn [exec] in H; auto.
  - exact (S _ _ _ _ H).
  - unfold check_expiry in H. destruct u; [|destruct (or_else (g_v2g c) false); [|inversion H]|destruct (or_else (g_v2g c) false); [|inversion H]];
      (destruct (d <? 30); [exact (S _ _ _ _ H)|inversion H]).
  - destruct (k_unanswered s); [inversion H|]. unfold handle_sign_response, seqc, set_unanswered in H. cbn in H.
    destruct (k_awaited s); [|inversion H]. destruct ok; [|inversion H].
    destruct (g_wait c), (g_repeat c); try (inversion H; fail). destruct (_ <? _); [inversion H|]. cbn in H.
    inversion H; subst; [discriminate|]. inversion H1.
  - inversion H.
  - unfold timer_fires in H. destruct (k_timer s); [|inversion H]. destruct (k_awaited s) as [u|]; [|inversion H].
    unfold seqc, set_timer, set_attempt, set_awaited in H. cbn [k_awaited k_attempt k_timer k_unanswered k_gone k_cb] in H.
    match type of H with context [sign_certificate_req c u false g ?x] => pose proof (S u false g x) as N;
      destruct (sign_certificate_req c u false g x) end.
    cbn in H, N. exact (N H).
  - inversion H.
Qed.
Print Assumptions C85_store_is_changed_only_on_request.
Example C85_store_is_changed_only_on_request_ex :
  Exists (fun x => is_store x = true) (snd (step (init true) (demo, Delete "hash"%string NotFound))).
Proof. vm_compute. auto. Qed.

(** A V2G certificate the store does not take is reported as an invalid certificate of the charging station. *)
Theorem C85_events_name_the_certificate_refuted :
  exists c chain, snd (step (init true) (c, Signed (Some V2G) chain InvalidFormat))
    = [OLeaf chain V2G; OSignedResp Rejected; OEvent InvalidChargingStationCertificate; OTell InvalidChargingStationCertificate].
Proof. exists (Config 1 None None None None None None None None None None None None None), "chain"%string. vm_compute. reflexivity. Qed.
Print Assumptions C85_events_name_the_certificate_refuted.
