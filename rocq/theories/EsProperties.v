(** * C130: certificate data pass between the CSMS and the security module unchanged *)
From Coq Require Import List String Arith Lia Bool.
From Verif Require Import EsModel EsSpec EsProofs.
Import ListNotations.

(** A request for the installed certificates asks the security module for what was asked
    for, in order, and the CSMS is told everything the module reported, in order, with
    the same purpose, hashes and children. *)
Theorem C130_installed_certificates_are_reported_as_they_are_partial : forall store l,
  ~ In VOEMRoot l ->
  exists ms, map purpose_m ms = map purpose_v l /\
    (Forall chain_fits (store ms) ->
     match store ms with
     | [] => handle_ids store (Some l) = Ok NotFound
     | _ => exists vs, handle_ids store (Some l) = Ok (Accepted vs) /\ Forall2 same_chain (store ms) vs
     end).
Proof.
  intros store l N. destruct (kinds_cases l) as [[_ [ms [E M]]]|[X _]]; [|contradiction].
  exists ms. split; [exact M|]. intros F.
  unfold handle_ids, get_installed. rewrite E. cbn [bind].
  destruct (each_chain_cases (store ms)) as [[_ [ds [-> T]]]|[X _]]; [|contradiction].
  cbn [bind]. destruct (store ms) as [|c cs].
  - inversion T. reflexivity.
  - destruct (map to_chain_v2 ds) as [|v vs]; [inversion T|]. exists (v :: vs). auto.
Qed.
Print Assumptions C130_installed_certificates_are_reported_as_they_are_partial.

(** Without a list the module is asked for all it can hold. *)
Theorem C130_without_a_list_all_are_asked_for : forall store,
  exists ms, NoDup ms /\ (forall k, In k ms) /\
    (Forall chain_fits (store ms) ->
     match store ms with
     | [] => handle_ids store None = Ok NotFound
     | _ => exists vs, handle_ids store None = Ok (Accepted vs) /\ Forall2 same_chain (store ms) vs
     end).
Proof.
  intros store. exists [MCSMSRoot; MMFRoot; MMORoot; MV2GChain; MV2GRoot].
  split; [repeat constructor; cbn; intuition discriminate|].
  split; [intros []; cbn; auto 7|]. intros F.
  unfold handle_ids, get_installed. cbn [each from_kind bind].
  set (ms := [MCSMSRoot; MMFRoot; MMORoot; MV2GChain; MV2GRoot]) in *.
  destruct (each_chain_cases (store ms)) as [[_ [ds [-> T]]]|[X _]]; [|contradiction].
  cbn [bind]. destruct (store ms) as [|c cs].
  - inversion T. reflexivity.
  - destruct (map to_chain_v2 ds) as [|v vs]; [inversion T|]. exists (v :: vs). auto.
Qed.
Print Assumptions C130_without_a_list_all_are_asked_for.

(** The only other thing that can happen is an exception. It does with an OEM root in the
    request, or when one certificate has data OCPP has no room for: then none is reported. *)
Theorem C130_when_none_is_reported : forall store l,
  (In VOEMRoot l -> handle_ids store (Some l) = Threw) /\
  (forall ms, ~ In VOEMRoot l -> map purpose_m ms = map purpose_v l ->
     ~ Forall chain_fits (store ms) -> handle_ids store (Some l) = Threw).
Proof.
  intros store l. destruct (kinds_cases l) as [[N [ms [E M]]]|[N E]].
  - split; [intros X; contradiction|]. intros ms' _ M' F.
    assert (ms' = ms).
    { rewrite <- M in M'. clear -M'. revert ms M'. induction ms' as [|x xs IH]; intros [|y ys] H; try discriminate H; [reflexivity|].
      cbn in H. injection H as H1 H2. f_equal; [destruct x, y; cbn in H1; congruence|auto]. }
    subst ms'. unfold handle_ids, get_installed. rewrite E. cbn [bind].
    destruct (each_chain_cases (store ms)) as [[X _]|[_ ->]]; [contradiction|reflexivity].
  - split; [|intros ms X; contradiction]. intros _. unfold handle_ids, get_installed. rewrite E. reflexivity.
Qed.
Print Assumptions C130_when_none_is_reported.

(** So the statement for all requests is false: a request for OEM roots and others is
    answered with an error although the others are installed. *)
Theorem C130_installed_certificates_are_reported_refuted : exists store l,
  (forall ms, In MCSMSRoot ms -> store ms <> [] /\ Forall chain_fits (store ms)) /\
  In VCSMSRoot l /\ handle_ids store (Some l) = Threw.
Proof.
  exists (fun _ => [{| m_kind := MCSMSRoot; m_hash := {| m_alg := M256; m_name := "n"; m_key := "k"; m_serial := "1" |};
                       m_children := [] |}]), [VCSMSRoot; VOEMRoot].
  split; [|split; [left; reflexivity|reflexivity]].
  intros ms _. split; [discriminate|]. constructor; [|constructor].
  split; [unfold fits; cbn; lia|constructor].
Qed.
Print Assumptions C130_installed_certificates_are_reported_refuted.

(** What was reported can be named: a deletion with reported hash data is a deletion of the
    certificate, or child, that the module reported; its result is passed on. *)
Theorem C130_what_was_reported_can_be_deleted : forall m v del,
  same_chain m v ->
  (exists r, handle_delete del (v_hash v) = Ok r /\
     (r = VDAccepted <-> del (m_hash m) = MDAccepted) /\ (r = VDNotFound <-> del (m_hash m) = MDNotFound)) /\
  (forall vs, v_children v = Some vs ->
     Forall2 (fun a b => forall d, (handle_delete d b = Ok VDAccepted <-> d a = MDAccepted) /\
                                   (handle_delete d b = Ok VDNotFound <-> d a = MDNotFound)) (m_children m) vs).
Proof.
  intros m v del [_ [H C]].
  assert (G : forall a b d, same_hash a b ->
    exists r, handle_delete d b = Ok r /\ (r = VDAccepted <-> d a = MDAccepted) /\ (r = VDNotFound <-> d a = MDNotFound)).
  { intros a b d S. unfold handle_delete. rewrite (same_hash_back _ _ S).
    destruct (d a); cbn; eexists; (split; [reflexivity|]); intuition congruence. }
  split; [apply G; exact H|].
  intros vs E. rewrite E in C. destruct C as [_ C]. clear - C G.
  induction C as [|a b l l' S F IH]; constructor; [|exact IH].
  intros d. destruct (G a b d S) as [r [-> [A B]]].
  split; [rewrite <- A|rewrite <- B]; (split; [intros X; injection X as ->; reflexivity | intros ->; reflexivity]).
Qed.
Print Assumptions C130_what_was_reported_can_be_deleted.

(** A certificate is installed for the purpose it was sent for and the CSMS learns whether
    it was, unless the purpose is OEM. *)
Theorem C130_installed_for_its_purpose_partial : forall store profile csms mf cert k,
  purpose_vca k <> ForOEM ->
  (exists m, purpose_mca m = purpose_vca k /\
     exists r, handle_install store profile csms mf cert k = Ok r /\
       (r = VAccepted -> store cert m = MAccepted) /\
       (1 < profile -> (r = VAccepted <-> store cert m = MAccepted) /\ (r = VFailed <-> store cert m = MWriteError))).
Proof.
  intros store profile csms mf cert k N.
  assert (exists m, from_ca (from_ca_v2 k) = Ok m /\ purpose_mca m = purpose_vca k) as [m [E P]].
  { destruct k; cbn in N |- *; try congruence; eexists; (split; [reflexivity|reflexivity]). }
  exists m. split; [exact P|]. unfold handle_install. rewrite E. cbn [bind].
  destruct (should_allow profile csms mf k) eqn:A.
  - eexists. split; [reflexivity|]. destruct (store cert m); cbn; intuition congruence.
  - eexists. split; [reflexivity|]. split; [discriminate|]. intros L.
    unfold should_allow in A. apply Nat.ltb_lt in L. rewrite L in A. discriminate.
Qed.
Print Assumptions C130_installed_for_its_purpose_partial.

(** An OEM root is refused with an answer on an insecure connection and with an exception
    on a secure one. *)
Theorem C130_how_an_oem_root_is_refused : forall store cert csms mf profile,
  handle_install store profile csms mf cert VCaOEM = if profile <=? 1 then Ok VRejected else Threw.
Proof.
  intros. unfold handle_install, should_allow.
  destruct (Nat.ltb_spec 1 profile), (Nat.leb_spec profile 1); try lia; reflexivity.
Qed.
Print Assumptions C130_how_an_oem_root_is_refused.
Theorem C130_installed_for_its_purpose_refuted : exists store profile csms mf cert k,
  (forall m, store cert m = MAccepted) /\ handle_install store profile csms mf cert k = Threw.
Proof.
  exists (fun _ _ => MAccepted), 3, None, None, "x"%string, VCaOEM. split; reflexivity.
Qed.
Print Assumptions C130_installed_for_its_purpose_refuted.

(** The settings for insecure connections decide about the CSMS and manufacturer roots. *)
Theorem C130_insecure_installation : forall store profile csms mf cert k,
  profile <= 1 -> 
  (k = VCaCSMS /\ csms = Some false \/ k = VCaManufacturer /\ mf = Some false) ->
  handle_install store profile csms mf cert k = Ok VRejected.
Proof.
  intros store profile csms mf cert k L H. unfold handle_install, should_allow.
  destruct (Nat.ltb_spec 1 profile); [lia|]. destruct H as [[-> ->]|[-> ->]]; reflexivity.
Qed.
Print Assumptions C130_insecure_installation.
Theorem C130_insecure_installation_allowed : forall store profile csms mf cert k,
  purpose_vca k <> ForOEM -> csms <> Some false -> mf <> Some false ->
  handle_install store profile csms mf cert k = handle_install store 2 csms mf cert k.
Proof.
  intros store profile csms mf cert k N A B. unfold handle_install, should_allow.
  destruct (1 <? profile); [reflexivity|]. cbn.
  destruct k; cbn in N; try congruence; destruct csms as [[]|], mf as [[]|]; congruence.
Qed.
Print Assumptions C130_insecure_installation_allowed.

(** The data to ask for the status of certificates with are passed on, in order. *)
Theorem C130_status_data_are_passed_on_partial : forall l,
  Forall ocsp_fits l -> Forall (fun o => mo_hash o <> None) l ->
  exists vs, ocsp_list l = Ok vs /\ Forall2 same_ocsp l vs.
Proof.
  induction l as [|o l IH]; intros F N; [exists []; split; [reflexivity|constructor]|].
  apply Forall_cons_iff in F. destruct F as [F1 F2]. apply Forall_cons_iff in N. destruct N as [N1 N2].
  destruct (ocsp_one o F1 N1) as [v [E S]]. destruct (IH F2 N2) as [vs [E2 S2]].
  exists (v :: vs). unfold ocsp_list in *. cbn [map each]. rewrite E. cbn [bind]. rewrite E2. cbn [bind].
  split; [reflexivity|constructor; assumption].
Qed.
Print Assumptions C130_status_data_are_passed_on_partial.

(** Without hash data the algorithm is read though nobody assigned it. *)
Theorem C130_status_data_are_passed_on_refuted : exists l, Forall ocsp_fits l /\ ocsp_list l = Undefined.
Proof.
  exists [{| mo_hash := None; mo_url := Some "http://ocsp"%string |}]. split; [|reflexivity].
  constructor; [|constructor]. split; [intros h X; discriminate X|].
  intros u X. injection X as <-. cbn. lia.
Qed.
Print Assumptions C130_status_data_are_passed_on_refuted.

(** ** Cases *)
Definition h (s : string) : mhash := {| m_alg := M384; m_name := "aa"; m_key := "bb"; m_serial := s |}.
Definition v (s : string) : vhash := {| v_alg := V384; v_name := "aa"; v_key := "bb"; v_serial := s |}.
Definition shop (ks : list mkind) : list mchain :=
  [{| m_kind := MV2GChain; m_hash := h "1"; m_children := [h "2"; h "3"] |};
   {| m_kind := MMFRoot; m_hash := h "4"; m_children := [] |}].

Example C130_two_chains :
  Forall chain_fits (shop []) /\
  handle_ids shop (Some [VV2GChain; VManufacturerRoot]) =
    Ok (Accepted [{| v_kind := VV2GChain; v_hash := v "1"; v_children := Some [v "2"; v "3"] |};
                  {| v_kind := VManufacturerRoot; v_hash := v "4"; v_children := None |}]).
Proof.
  split; [|reflexivity].
  assert (F : forall s, String.length s <= 40 -> fits (h s)) by (intros; unfold fits; cbn; lia).
  repeat constructor; cbn; lia.
Qed.

(** One serial number of 41 characters keeps all certificates from being reported. *)
Example C130_one_too_long :
  handle_ids (fun ks => {| m_kind := MMORoot; m_hash := h "01234567890123456789012345678901234567890";
                           m_children := [] |} :: shop ks) None = Threw.
Proof. reflexivity. Qed.

Example C130_deleted :
  handle_delete (fun x => if String.eqb (m_serial x) "2" then MDAccepted else MDNotFound) (v "2") = Ok VDAccepted
  /\ handle_delete (fun x => if String.eqb (m_serial x) "2" then MDAccepted else MDNotFound) (v "4") = Ok VDNotFound.
Proof. split; reflexivity. Qed.

Example C130_installed :
  handle_install (fun _ m => match m with MCaMF => MAccepted | _ => MWriteError end) 3 None None "x" VCaManufacturer
    = Ok VAccepted
  /\ handle_install (fun _ m => match m with MCaMF => MAccepted | _ => MExpired end) 1 None (Some false) "x" VCaMO
    = Ok VRejected.
Proof. split; reflexivity. Qed.

Example C130_status_data :
  ocsp_list [{| mo_hash := Some (h "1"); mo_url := None |}; {| mo_hash := Some (h "2"); mo_url := Some "u"%string |}]
  = Ok [{| vo_alg := V384; vo_name := "aa"; vo_key := "bb"; vo_serial := "1"; vo_url := "" |};
        {| vo_alg := V384; vo_name := "aa"; vo_key := "bb"; vo_serial := "2"; vo_url := "u" |}].
Proof. reflexivity. Qed.
