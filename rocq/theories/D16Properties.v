(** C117: whom a DataTransfer.req reaches; C118: what requests about certificates do (OCPP 1.6). *)
From Coq Require Import ZArith String List Bool Lia.
From Verif Require Import D16Model D16Spec D16Proofs.
Import ListNotations.
Local Open Scope string_scope.
Local Open Scope list_scope.
Local Open Scope Z_scope.

(** * C117 *)

Lemma named_eq r m : named r m -> or_else (message r) "" = m.
Proof. intros [E | (E & ->)]; rewrite E; reflexivity. Qed.
Lemma kn_b (s : dts) (p : option payload) : dts_eqb s DUnknownVendorId || dts_eqb s DUnknownMessageId = true <-> knows_nothing (Some (s, p)).
Proof.
  unfold knows_nothing. split.
  - intros H. exists p. destruct s; try discriminate; auto.
  - intros (q & [H | H]); inversion H; reflexivity.
Qed.

(** A callback registered for the vendor and the message (the last one) is asked, with the data; the general one only if that
    one says it knows the vendor or the message not. *)
Theorem C117_own e s h r m cb own gen : dt_happened e s h -> vendor r <> pnc_vendor -> named r m -> registered h (vendor r) m cb ->
  let ls := snd (dt_step e s (Receive r own gen)) in
  (knows_nothing (own cb) -> In RegisterGeneral h -> ls = ORun cb (data r) :: ORunGeneral r :: says gen) /\
  (~ knows_nothing (own cb) \/ ~ In RegisterGeneral h -> ls = ORun cb (data r) :: says (own cb)).
Proof.
  intros H NV N R ls. subst ls. cbn [dt_step snd]. unfold data_transfer. rewrite (named_eq _ _ N).
  assert (V : String.eqb (vendor r) pnc_vendor = false) by now apply String.eqb_neq. rewrite V. cbn [andb].
  assert (K : knows_vendor s (vendor r) = true) by (apply (knows_iff e s h H); eauto). rewrite K. cbn [negb].
  assert (L : lookup s (vendor r) m = Some cb) by now apply (lookup_iff e s h H). rewrite L.
  pose proof (general_iff e s h H) as G. destruct (own cb) as [(st, p) | ] eqn:O.
  - pose proof (kn_b st p) as B. split.
    + intros X Y. apply B in X. apply G in Y. rewrite X, Y. destruct gen as [(st', p') | ]; reflexivity.
    + intros X. assert (E : (dts_eqb st DUnknownVendorId || dts_eqb st DUnknownMessageId) && general s = false).
      { apply andb_false_iff. destruct X as [X | X]; [left; apply not_true_is_false; intros Y; apply X; now apply B | right; apply not_true_is_false; intros Y; apply X; now apply G]. }
      rewrite E. reflexivity.
  - split; [intros (q & [X | X]); discriminate | reflexivity].
Qed.
Print Assumptions C117_own.

(** If there is none, the general one is asked; if that is not there either, the CSMS learns what is unknown. *)
Theorem C117_nobody e s h r m own gen : dt_happened e s h -> vendor r <> pnc_vendor -> named r m -> (forall cb, ~ registered h (vendor r) m cb) ->
  let ls := snd (dt_step e s (Receive r own gen)) in
  (In RegisterGeneral h -> ls = ORunGeneral r :: says gen) /\
  (~ In RegisterGeneral h -> exists st, ls = [OConf st None] /\
     ((exists m' cb, registered h (vendor r) m' cb) /\ st = DUnknownMessageId \/ (~ (exists m' cb, registered h (vendor r) m' cb)) /\ st = DUnknownVendorId)).
Proof.
  intros H NV N R ls. subst ls. cbn [dt_step snd]. unfold data_transfer. rewrite (named_eq _ _ N).
  assert (V : String.eqb (vendor r) pnc_vendor = false) by now apply String.eqb_neq. rewrite V. cbn [andb].
  pose proof (general_iff e s h H) as G. pose proof (knows_iff e s h H (vendor r)) as K.
  assert (L : lookup s (vendor r) m = None). { destruct (lookup s (vendor r) m) as [cb | ] eqn:L; auto. apply (lookup_iff e s h H) in L. now apply R in L. }
  rewrite L. split.
  - intros X. apply G in X. rewrite X. destruct (negb (knows_vendor s (vendor r))); cbn; destruct gen as [(st, p) | ]; reflexivity.
  - intros X. assert (Y : general s = false) by (apply not_true_is_false; intros Y; apply X; now apply G). rewrite Y. rewrite !andb_false_r.
    destruct (knows_vendor s (vendor r)) eqn:E; cbn [negb].
    + exists DUnknownMessageId. split; auto. left. split; auto. now apply K.
    + exists DUnknownVendorId. split; auto. right. split; auto. intros Z. apply K in Z. discriminate.
Qed.
Print Assumptions C117_nobody.

Definition five : list string := ["TriggerMessage"; "CertificateSigned"; "GetInstalledCertificateIds"; "DeleteCertificate"; "InstallCertificate"].
Lemma handler_iff m : In m five <-> exists f, pnc_handler m = Some f.
Proof.
  unfold pnc_handler, five. cbn [In]. split.
  - intros [<- | [<- | [<- | [<- | [<- | []]]]]]; cbn; eauto.
  - intros (f & H).
    destruct (String.eqb_spec m "TriggerMessage"); [auto |]. destruct (String.eqb_spec m "CertificateSigned"); [auto |].
    destruct (String.eqb_spec m "GetInstalledCertificateIds"); [auto |]. destruct (String.eqb_spec m "DeleteCertificate"); [auto |].
    destruct (String.eqb_spec m "InstallCertificate"); [auto 6 | discriminate].
Qed.
Lemma pnc_outs e s r m own gen : vendor r = pnc_vendor -> mgmt e = true -> named r m -> In m five ->
  exists f, pnc_handler m = Some f /\ snd (dt_step e s (Receive r own gen)) = f e r.
Proof.
  intros V M N I. apply handler_iff in I. destruct I as (f & F). exists f. split; auto. cbn [dt_step snd]. unfold data_transfer.
  rewrite (named_eq _ _ N), V, String.eqb_refl, M, F. reflexivity.
Qed.

(** The vendor of ISO 15118 belongs to the library: no registered callback is called; what it does not know goes to the general
    callback. *)
Theorem C117_pnc e s h r m own gen : dt_happened e s h -> vendor r = pnc_vendor -> named r m ->
  let on := pnc_profile e = true /\ cert_mgmt e = true in
  let ls := snd (dt_step e s (Receive r own gen)) in
  (forall cb d, ~ In (ORun cb d) ls) /\
  (~ on -> (In RegisterGeneral h -> ls = ORunGeneral r :: says gen) /\ (~ In RegisterGeneral h -> ls = [OConf DUnknownVendorId None])) /\
  (on -> ~ In m five -> (In RegisterGeneral h -> ls = ORunGeneral r :: says gen) /\ (~ In RegisterGeneral h -> ls = [OConf DUnknownMessageId None])) /\
  (on -> In m five -> ~ In (ORunGeneral r) ls).
Proof.
  intros H V N on ls. assert (M : mgmt e = true <-> on) by (unfold mgmt, on; apply andb_true_iff).
  pose proof (general_iff e s h H) as G. split; [| split; [| split]].
  - intros cb d X. subst ls. cbn [dt_step snd] in X. unfold data_transfer in X. rewrite V, String.eqb_refl in X. cbn [andb] in X.
    destruct (mgmt e); cbn [negb] in X.
    + destruct (pnc_handler (or_else (message r) "")) as [f | ] eqn:F.
      * unfold pnc_handler in F.
        destruct (String.eqb (or_else (message r) "") "TriggerMessage"); [inversion F; subst; unfold pnc_trigger, pnc_sign in X;
          destruct (has (cpo_name e) || has (organization e)); [| cbn in X; intuition discriminate];
          destruct (negb (has (cpo_name e)) && negb (has (organization e))); [cbn in X; intuition discriminate |];
          destruct (csr e UV2G (or_else (organization e) (or_else (cpo_name e) "DEFAULT"))); cbn in X; intuition discriminate |].
        destruct (String.eqb (or_else (message r) "") "CertificateSigned"); [inversion F; subst; unfold pnc_signed in X;
          destruct (data r) as [x | ]; [destruct (parse_signed e x) as [(u, c) | ]; [| cbn in X; intuition discriminate] | cbn in X; intuition discriminate];
          match type of X with In _ (if ?b then _ else _) => destruct b end; [cbn in X; intuition discriminate |];
          destruct (update_leaf e UV2G c) as [i | ]; [destruct (is_accepted i) |]; cbn in X; intuition discriminate |].
        destruct (String.eqb (or_else (message r) "") "GetInstalledCertificateIds"); [inversion F; subst; unfold pnc_ids in X;
          destruct (data r) as [x | ]; [destruct (parse_ids e x) as [o | ]; [| cbn in X; intuition discriminate] | cbn in X; intuition discriminate];
          destruct X as [X | X]; [discriminate |]; destruct (installed e _) as [[ | y l] | ]; cbn in X; intuition discriminate |].
        destruct (String.eqb (or_else (message r) "") "DeleteCertificate"); [inversion F; subst; unfold pnc_delete in X;
          destruct (data r) as [x | ]; [destruct (parse_delete e x) as [o | ]; [| cbn in X; intuition discriminate] | cbn in X; intuition discriminate];
          destruct X as [X | X]; [discriminate |]; destruct (delete e _); cbn in X; intuition discriminate |].
        destruct (String.eqb (or_else (message r) "") "InstallCertificate"); [inversion F; subst; unfold pnc_install in X;
          destruct (data r) as [x | ]; [destruct (parse_install e x) as [(k, o) | ]; [| cbn in X; intuition discriminate] | cbn in X; intuition discriminate];
          destruct X as [X | X]; [discriminate |]; destruct (install e _ _); cbn in X; intuition discriminate |].
        discriminate.
      * destruct ((dts_eqb DUnknownMessageId DUnknownVendorId || dts_eqb DUnknownMessageId DUnknownMessageId) && general s); [destruct gen as [(st, p) | ]|]; cbn in X; intuition discriminate.
    + destruct ((dts_eqb DUnknownVendorId DUnknownVendorId || dts_eqb DUnknownVendorId DUnknownMessageId) && general s); [destruct gen as [(st, p) | ]|]; cbn in X; intuition discriminate.
  - intros O. assert (E : mgmt e = false) by (apply not_true_is_false; intros Y; apply O; now apply M). subst ls. cbn [dt_step snd]. unfold data_transfer.
    rewrite V, String.eqb_refl, E. cbn. split.
    + intros Y. apply G in Y. rewrite Y. destruct gen as [(st, p) | ]; reflexivity.
    + intros Y. destruct (general s); auto. exfalso. apply Y. now apply G.
  - intros O I. apply M in O. assert (F : pnc_handler m = None) by (destruct (pnc_handler m) eqn:F; auto; exfalso; apply I; apply handler_iff; eauto).
    subst ls. cbn [dt_step snd]. unfold data_transfer. rewrite (named_eq _ _ N), V, String.eqb_refl, O, F. cbn. split.
    + intros Y. apply G in Y. rewrite Y. destruct gen as [(st, p) | ]; reflexivity.
    + intros Y. destruct (general s); auto. exfalso. apply Y. now apply G.
  - intros O I X. apply M in O. destruct (pnc_outs e s r m own gen V O N I) as (f & F & E). subst ls. rewrite E in X. clear E.
    destruct I as [<- | [<- | [<- | [<- | [<- | []]]]]]; inversion F; subst; clear F.
    + unfold pnc_trigger, pnc_sign in X.
      destruct (has (cpo_name e) || has (organization e)); [| cbn in X; intuition discriminate];
      destruct (negb (has (cpo_name e)) && negb (has (organization e))); [cbn in X; intuition discriminate |];
      destruct (csr e UV2G (or_else (organization e) (or_else (cpo_name e) "DEFAULT"))); cbn in X; intuition discriminate.
    + unfold pnc_signed in X.
      destruct (data r) as [x | ]; [destruct (parse_signed e x) as [(u, c) | ]; [| cbn in X; intuition discriminate] | cbn in X; intuition discriminate];
      match type of X with In _ (if ?b then _ else _) => destruct b end; [cbn in X; intuition discriminate |];
      destruct (update_leaf e UV2G c) as [i | ]; [destruct (is_accepted i) |]; cbn in X; intuition discriminate.
    + unfold pnc_ids in X.
      destruct (data r) as [x | ]; [destruct (parse_ids e x) as [o | ]; [| cbn in X; intuition discriminate] | cbn in X; intuition discriminate];
      destruct X as [X | X]; [discriminate |]; destruct (installed e _) as [[ | y l] | ]; cbn in X; intuition discriminate.
    + unfold pnc_delete in X.
      destruct (data r) as [x | ]; [destruct (parse_delete e x) as [o | ]; [| cbn in X; intuition discriminate] | cbn in X; intuition discriminate];
      destruct X as [X | X]; [discriminate |]; destruct (delete e _); cbn in X; intuition discriminate.
    + unfold pnc_install in X.
      destruct (data r) as [x | ]; [destruct (parse_install e x) as [(k, o) | ]; [| cbn in X; intuition discriminate] | cbn in X; intuition discriminate];
      destruct X as [X | X]; [discriminate |]; destruct (install e _ _); cbn in X; intuition discriminate.
Qed.
Print Assumptions C117_pnc.

(** Every DataTransfer.req is answered exactly once. *)
Lemma handler_one m f e r : pnc_handler m = Some f -> List.length (filter is_reply (f e r)) = 1%nat.
Proof.
  intros F. assert (I : In m five) by (apply handler_iff; eauto).
  destruct I as [<- | [<- | [<- | [<- | [<- | []]]]]]; inversion F; subst; clear F.
  - unfold pnc_trigger, pnc_sign. destruct (has (cpo_name e) || has (organization e)); auto.
    destruct (negb (has (cpo_name e)) && negb (has (organization e))); auto. destruct (csr e UV2G (or_else (organization e) (or_else (cpo_name e) "DEFAULT"))); auto.
  - unfold pnc_signed. destruct (data r) as [x | ]; auto. destruct (parse_signed e x) as [(u, c) | ]; auto.
    match goal with |- context [if ?b then _ else _] => destruct b end; auto. destruct (update_leaf e UV2G c) as [i | ]; auto. destruct (is_accepted i); auto.
  - unfold pnc_ids. destruct (data r) as [x | ]; auto. destruct (parse_ids e x) as [o | ]; auto. destruct (installed e _) as [[ | y l] | ]; auto.
  - unfold pnc_delete. destruct (data r) as [x | ]; auto. destruct (parse_delete e x) as [o | ]; auto. destruct (delete e _); auto.
  - unfold pnc_install. destruct (data r) as [x | ]; auto. destruct (parse_install e x) as [(k, o) | ]; auto. destruct (install e _ _); auto.
Qed.
Theorem C117_one_answer e s r own gen : List.length (filter is_reply (snd (dt_step e s (Receive r own gen)))) = 1%nat.
Proof.
  cbn [dt_step snd]. unfold data_transfer.
  destruct (String.eqb (vendor r) pnc_vendor && negb (mgmt e)).
  - destruct ((dts_eqb DUnknownVendorId DUnknownVendorId || dts_eqb DUnknownVendorId DUnknownMessageId) && general s); auto. destruct gen as [(st, p) | ]; auto.
  - destruct (String.eqb (vendor r) pnc_vendor).
    + destruct (pnc_handler (or_else (message r) "")) as [f | ] eqn:F; [eapply handler_one; eauto |].
      destruct ((dts_eqb DUnknownMessageId DUnknownVendorId || dts_eqb DUnknownMessageId DUnknownMessageId) && general s); auto. destruct gen as [(st, p) | ]; auto.
    + destruct (negb (knows_vendor s (vendor r))).
      * destruct ((dts_eqb DUnknownVendorId DUnknownVendorId || dts_eqb DUnknownVendorId DUnknownMessageId) && general s); auto. destruct gen as [(st, p) | ]; auto.
      * destruct (lookup s (vendor r) (or_else (message r) "")) as [cb | ].
        -- destruct (own cb) as [(st, p) | ]; auto. destruct ((dts_eqb st DUnknownVendorId || dts_eqb st DUnknownMessageId) && general s); auto. destruct gen as [(st', p') | ]; auto.
        -- destruct ((dts_eqb DUnknownMessageId DUnknownVendorId || dts_eqb DUnknownMessageId DUnknownMessageId) && general s); auto. destruct gen as [(st, p) | ]; auto.
Qed.
Print Assumptions C117_one_answer.

(** What the application learns of its own DataTransfer.req: nothing iff the station is offline or no answer came in time; the answer if
    it can be read, otherwise that it is rejected. *)
Theorem C117_sent connected a :
  (send_dt connected a = None <-> connected = false \/ a = Late \/ (exists x, a = Conf x true) \/ a = Other true) /\
  (forall y, connected = true -> a = Conf (Some y) false -> send_dt connected a = Some y) /\
  (forall y, send_dt connected a = Some y -> (forall y', a <> Conf (Some y') false) -> y = (DRejected, None)).
Proof.
  split; [| split].
  - destruct connected, a as [ | x [ | ] | [ | ]]; cbn; split; intros X; auto 6; try discriminate; eauto 6.
    all: destruct X as [X | [X | [(y & X) | X]]]; discriminate.
  - intros y -> ->. reflexivity.
  - intros y X N. destruct connected, a as [ | [z | ] [ | ] | [ | ]]; cbn in X; inversion X; subst; auto. exfalso. now apply (N y).
Qed.
Print Assumptions C117_sent.

Definition e0 : env := {| pnc_profile := true; cert_mgmt := true; cpo_name := Some "CPO"; organization := None;
  csr := fun _ _ => None; max_chain := Some (-1); sec_profile := 3;
  parse_signed := fun d => Some (None, d); parse_ids := fun _ => Some None; parse_delete := fun d => Some d; parse_install := fun d => Some (KV2GRoot, d);
  update_leaf := fun u c => if String.eqb c "bad" then None else Some IAccepted; installed := fun _ => Some ["a"]; delete := fun _ => Some DelNotFound;
  install := fun _ _ => Some Expired |}.
Fixpoint runs (e : env) (s : dt_state) (os : list dt_op) : list out :=
  match os with [] => [] | o :: r => snd (dt_step e s o) ++ runs e (fst (dt_step e s o)) r end.
Definition s0 : dt_state := {| explicit := []; general := false |}.
Definition acme (m : string) : req := {| vendor := "Acme"; message := Some m; data := Some "x" |}.

(** A callback that knows the message and says so, but not what it is about, is overruled by the general one. *)
Theorem C117_overruled_refuted : exists os, runs e0 s0 os = [ORun 5 (Some "x"); ORunGeneral (acme "m"); OConf DAccepted None].
Proof. exists [Register "Acme" "m" 5; RegisterGeneral; Receive (acme "m") (fun _ => Some (DUnknownMessageId, Some (PText "no"))) (Some (DAccepted, None))]. vm_compute. reflexivity. Qed.
Print Assumptions C117_overruled_refuted.
(** Vendor and message are compared with regard to case, although they are case insensitive strings. *)
Theorem C117_case_refuted : exists os, runs e0 s0 os = [OConf DUnknownVendorId None].
Proof. exists [Register "ACME" "m" 5; Receive (acme "m") (fun _ => Some (DAccepted, None)) None]. vm_compute. reflexivity. Qed.
Print Assumptions C117_case_refuted.
Example C117_example : exists s h, dt_happened e0 s h /\ registered h "Acme" "m" 6 /\ ~ registered h "Acme" "m" 5 /\ (forall cb, ~ registered h "Acme" "k" cb) /\
  snd (dt_step e0 s (Receive (acme "m") (fun cb => Some (DAccepted, Some (PText "yes"))) None)) = [ORun 6 (Some "x"); OConf DAccepted (Some (PText "yes"))].
Proof.
  do 2 eexists. split; [eapply dh_step with (o := Register "Acme" "m" 6); eapply dh_step with (o := Register "Acme" "m" 5); apply dh_init |].
  split; [constructor |]. split; [| split].
  - intros X. inversion X; subst. match goal with Y : forall _, Register _ _ _ <> _ |- _ => now apply (Y 6) end.
  - intros cb X. inversion X; subst. match goal with Y : registered _ _ _ _ |- _ => inversion Y; subst end. match goal with Y : registered [] _ _ _ |- _ => inversion Y end.
  - vm_compute. reflexivity.
Qed.

(** * C118: certificates for ISO 15118 *)

(** The store is asked for what the message says, and for nothing else. *)
Theorem C118_store e s r m own gen : sane e -> vendor r = pnc_vendor -> mgmt e = true -> named r m -> In m five ->
  forall o, to_store o -> In o (snd (dt_step e s (Receive r own gen))) <-> asked e m (data r) o.
Proof.
  intros S V M N I o T. destruct (pnc_outs e s r m own gen V M N I) as (f & F & E). rewrite E. clear E.
  destruct I as [<- | [<- | [<- | [<- | [<- | []]]]]]; inversion F; subst; clear F.
  - unfold pnc_trigger, pnc_sign. destruct (subject_dec e) as [(n & B & NN & C) | (B & C)]; rewrite C.
    + rewrite <- negb_orb, C, NN. cbn [negb In]. split.
      * intros [X | [X | X]]; [subst; destruct T | subst; now constructor | destruct (csr e UV2G n); cbn in X; destruct X as [X | []]; subst; destruct T].
      * intros X. inversion X; subst. right. left. f_equal. eapply subject_fun; eauto.
    + split; [intros [X | []]; subst; destruct T | intros X; inversion X; subst; exfalso; eapply B; eauto].
  - unfold pnc_signed. destruct (data r) as [d | ]; [| split; [intros [X | []]; subst; destruct T | intros X; inversion X]].
    destruct (parse_signed e d) as [(u, c) | ] eqn:P; [| split; [intros [X | []]; subst; destruct T | intros X; inversion X; subst; congruence]].
    pose proof (fits_b e c S (proj2 S _ _ _ P)) as FB. destruct u as [[ | ] | ]; cbn [orb].
    + split; [intros [X | [X | []]]; subst; destruct T | intros X; inversion X; subst; congruence].
    + match goal with |- context [if ?b then _ else _] => destruct b eqn:BB end.
      * split; [intros [X | [X | []]]; subst; destruct T |]. intros X. inversion X; subst. exfalso. match goal with Y : parse_signed _ _ = Some _ |- _ => rewrite P in Y; inversion Y; subst end.
        match goal with Y : fits _ _ |- _ => apply FB in Y; congruence end.
      * split.
        -- intros [X | X]; [subst; apply a_signed with (Some UV2G); auto; [discriminate | now apply FB] |].
           destruct (update_leaf e UV2G c) as [i | ]; [destruct (is_accepted i) |]; cbn in X; intuition (subst; cbn in T; tauto).
        -- intros X. inversion X; subst. left. congruence.
    + match goal with |- context [if ?b then _ else _] => destruct b eqn:BB end.
      * split; [intros [X | [X | []]]; subst; destruct T |]. intros X. inversion X; subst. exfalso. match goal with Y : parse_signed _ _ = Some _ |- _ => rewrite P in Y; inversion Y; subst end.
        match goal with Y : fits _ _ |- _ => apply FB in Y; congruence end.
      * split.
        -- intros [X | X]; [subst; apply a_signed with None; auto; [discriminate | now apply FB] |].
           destruct (update_leaf e UV2G c) as [i | ]; [destruct (is_accepted i) |]; cbn in X; intuition (subst; cbn in T; tauto).
        -- intros X. inversion X; subst. left. congruence.
  - unfold pnc_ids. destruct (data r) as [d | ]; [| split; [intros [X | []]; subst; destruct T | intros X; inversion X]].
    destruct (parse_ids e d) as [ks | ] eqn:P; [| split; [intros [X | []]; subst; destruct T | intros X; inversion X; subst; congruence]]. split.
    + intros [X | X]; [subst; destruct ks; now constructor |]. destruct (installed e _) as [[ | y l] | ]; cbn in X; destruct X as [X | []]; subst; destruct T.
    + intros X. left. inversion X; subst; match goal with Y : parse_ids _ _ = Some _ |- _ => rewrite P in Y; inversion Y; subst end; reflexivity.
  - unfold pnc_delete. destruct (data r) as [d | ]; [| split; [intros [X | []]; subst; destruct T | intros X; inversion X]].
    destruct (parse_delete e d) as [h | ] eqn:P; [| split; [intros [X | []]; subst; destruct T | intros X; inversion X; subst; congruence]]. split.
    + intros [X | X]; [subst; now constructor |]. destruct (delete e h); cbn in X; destruct X as [X | []]; subst; destruct T.
    + intros X. left. inversion X; subst. congruence.
  - unfold pnc_install. destruct (data r) as [d | ]; [| split; [intros [X | []]; subst; destruct T | intros X; inversion X]].
    destruct (parse_install e d) as [(k, c) | ] eqn:P; [| split; [intros [X | []]; subst; destruct T | intros X; inversion X; subst; congruence]]. split.
    + intros [X | X]; [subst; now constructor |]. destruct (install e k c); cbn in X; destruct X as [X | []]; subst; destruct T.
    + intros X. left. inversion X; subst. congruence.
Qed.
Print Assumptions C118_store.

(** Without the management of certificates, or for another vendor, it is not asked at all. *)
Theorem C118_guard e s r own gen o : to_store o -> In o (snd (dt_step e s (Receive r own gen))) ->
  vendor r = pnc_vendor /\ pnc_profile e = true /\ cert_mgmt e = true.
Proof.
  intros T. cbn [dt_step snd]. unfold data_transfer.
  assert (G : forall pre st p, In o (if (dts_eqb st DUnknownVendorId || dts_eqb st DUnknownMessageId) && general s
      then pre ++ ORunGeneral r :: match gen with None => [OCallError] | Some (st', p') => [OConf st' p'] end else pre ++ [OConf st p]) -> In o pre).
  { intros pre st p X. destruct ((dts_eqb st DUnknownVendorId || dts_eqb st DUnknownMessageId) && general s); apply in_app_iff in X; destruct X as [X | X]; auto; exfalso.
    - destruct X as [X | X]; [subst; destruct T |]. destruct gen as [(st', p') | ]; destruct X as [X | []]; subst; destruct T.
    - destruct X as [X | []]; subst; destruct T. }
  destruct (String.eqb_spec (vendor r) pnc_vendor) as [V | V]; cbn [andb].
  - unfold mgmt. destruct (pnc_profile e), (cert_mgmt e); cbn [negb andb]; auto; intros X; apply G in X; destruct X.
  - destruct (negb (knows_vendor s (vendor r))); [intros X; apply G in X; destruct X |].
    destruct (lookup s (vendor r) (or_else (message r) "")) as [cb | ]; [| intros X; apply G in X; destruct X].
    destruct (own cb) as [(st, p) | ].
    + intros X. apply G in X. destruct X as [X | []]; subst; destruct T.
    + intros [X | [X | []]]; subst; destruct T.
Qed.
Print Assumptions C118_guard.

(** The CSMS is told the outcome. *)
Theorem C118_told e s r m own gen : sane e -> vendor r = pnc_vendor -> mgmt e = true -> named r m -> In m five ->
  forall p, In (OConf DAccepted (Some p)) (snd (dt_step e s (Receive r own gen))) <-> told e m (data r) p.
Proof.
  intros S V M N I p. destruct (pnc_outs e s r m own gen V M N I) as (f & F & E). rewrite E. clear E.
  destruct I as [<- | [<- | [<- | [<- | [<- | []]]]]]; inversion F; subst; clear F.
  - unfold pnc_trigger, pnc_sign. destruct (subject_dec e) as [(n & B & NN & C) | (B & C)]; rewrite C.
    + rewrite <- negb_orb, C, NN. cbn [negb In]. split.
      * intros [X | [X | X]]; [injection X as <-; now apply t_csr with n | discriminate | destruct (csr e UV2G n); cbn in X; destruct X as [X | []]; discriminate].
      * intros X. inversion X; subst. now left.
    + split; [intros [X | []]; discriminate | intros X; inversion X; subst; exfalso; eapply B; eauto].
  - unfold pnc_signed. destruct (data r) as [d | ]; [| split; [intros [X | []]; discriminate | intros X; inversion X]].
    destruct (parse_signed e d) as [(u, c) | ] eqn:P; [| split; [intros [X | []]; discriminate | intros X; inversion X; subst; congruence]].
    pose proof (fits_b e c S (proj2 S _ _ _ P)) as FB.
    assert (BACK : forall p, told e "CertificateSigned" (Some d) p ->
      (u = Some UStation \/ ~ fits e c) /\ p = PSigned false \/ (u <> Some UStation /\ fits e c /\ exists i, update_leaf e UV2G c = Some i /\ p = PSigned (is_accepted i))).
    { intros q X. inversion X; subst; match goal with Y : parse_signed _ _ = Some _ |- _ => rewrite P in Y; inversion Y; subst end; auto.
      right. split; [auto | split; [auto |]]. eexists. split; [eauto |]. f_equal. destruct b, r0; cbn; auto; try (assert (Y : true = true) by auto; match goal with Z : _ <-> _ |- _ => apply Z in Y; discriminate end).
      assert (Y : IAccepted = IAccepted) by auto. match goal with Z : _ <-> _ |- _ => apply Z in Y; discriminate end. }
    assert (ACC : forall i, is_accepted i = true <-> i = IAccepted) by (intros [ ]; cbn; split; congruence).
    assert (CASE : u <> Some UStation -> In (OConf DAccepted (Some p)) (if false || match max_chain e with Some m => to_size m <? Z.of_nat (String.length c) | None => false end
      then [OConf DAccepted (Some (PSigned false)); OEvent InvalidChargePointCertificate false]
      else OUpdateLeaf UV2G c :: match update_leaf e UV2G c with None => [OConf DAccepted None]
        | Some x => if is_accepted x then [OConf DAccepted (Some (PSigned true)); OOcspNow] else [OConf DAccepted (Some (PSigned false)); OEvent InvalidChargePointCertificate false] end)
      <-> told e "CertificateSigned" (Some d) p).
    { intros U. cbn [orb]. match goal with |- context [if ?b then _ else _] => destruct b eqn:BB end.
      - assert (NF : ~ fits e c) by (intros X; apply FB in X; congruence). split.
        + intros [X | [X | []]]; inversion X; subst. now apply t_long with u c.
        + intros X. apply BACK in X. destruct X as [(_ & ->) | (_ & X & _)]; [now left | now apply NF in X].
      - assert (NF : fits e c) by now apply FB. split.
        + intros [X | X]; [discriminate |]. destruct (update_leaf e UV2G c) as [i | ] eqn:UL; [| cbn in X; intuition discriminate].
          destruct (is_accepted i) eqn:IA; cbn in X; destruct X as [X | [X | []]]; inversion X; subst; apply t_signed with u c i; auto; rewrite <- (ACC i), IA; split; auto.
        + intros X. apply BACK in X. destruct X as [([X | X] & _) | (_ & _ & i & UL & ->)]; [congruence | now apply X in NF |]. rewrite UL. destruct (is_accepted i); cbn; auto. }
    destruct u as [[ | ] | ]; [| apply CASE; discriminate | apply CASE; discriminate].
    cbn [orb]. split; [intros [X | [X | []]]; inversion X; subst; now apply t_use with c |].
    intros X. apply BACK in X. destruct X as [(_ & ->) | (X & _)]; [now left | congruence].
  - unfold pnc_ids. destruct (data r) as [d | ]; [| split; [intros [X | []]; discriminate | intros X; inversion X]].
    destruct (parse_ids e d) as [ks | ] eqn:P; [| split; [intros [X | []]; discriminate | intros X; inversion X; subst; congruence]]. split.
    + intros [X | X]; [discriminate |]. destruct (installed e _) as [[ | y l] | ] eqn:IN; cbn in X; destruct X as [X | []]; inversion X; subst.
      * now apply t_none with ks.
      * apply t_ids with ks; auto. discriminate.
    + intros X. right. inversion X; subst; match goal with Y : parse_ids _ _ = Some _ |- _ => rewrite P in Y; inversion Y; subst end;
        match goal with Y : installed _ _ = Some _ |- _ => rewrite Y end; [destruct l; [congruence | now left] | now left].
  - unfold pnc_delete. destruct (data r) as [d | ]; [| split; [intros [X | []]; discriminate | intros X; inversion X]].
    destruct (parse_delete e d) as [h | ] eqn:P; [| split; [intros [X | []]; discriminate | intros X; inversion X; subst; congruence]]. split.
    + intros [X | X]; [discriminate |]. destruct (delete e h) eqn:D; cbn in X; destruct X as [X | []]; inversion X; subst. now apply t_delete with h.
    + intros X. right. inversion X; subst. match goal with Y : parse_delete _ _ = Some _, Z : delete _ _ = Some _ |- _ => rewrite P in Y; inversion Y; subst; rewrite Z end. now left.
  - unfold pnc_install. destruct (data r) as [d | ]; [| split; [intros [X | []]; discriminate | intros X; inversion X]].
    destruct (parse_install e d) as [(k, c) | ] eqn:P; [| split; [intros [X | []]; discriminate | intros X; inversion X; subst; congruence]]. split.
    + intros [X | X]; [discriminate |]. destruct (install e k c) as [i | ] eqn:D; cbn in X; destruct X as [X | []]; inversion X; subst. apply t_install with k c i; auto. apply worth_to.
    + intros X. right. inversion X; subst. match goal with Y : parse_install _ _ = Some _, Z : install _ _ _ = Some _ |- _ => rewrite P in Y; inversion Y; subst; rewrite Z end. left. f_equal. f_equal. f_equal.
      eapply worth_fun; eauto. apply worth_to.
Qed.
Print Assumptions C118_told.

(** What is not told is rejected, unless the store throws when a leaf is to be installed. *)
Theorem C118_rejected e s r m own gen : sane e -> vendor r = pnc_vendor -> mgmt e = true -> named r m -> In m five ->
  (forall p, ~ told e m (data r) p) -> (forall c, asked e m (data r) (OUpdateLeaf UV2G c) -> update_leaf e UV2G c <> None) ->
  exists p, In (OConf DRejected p) (snd (dt_step e s (Receive r own gen))).
Proof.
  intros S V M N I NT NU. pose proof (C118_told e s r m own gen S V M N I) as TOLD. pose proof (C118_store e s r m own gen S V M N I) as ST.
  destruct (pnc_outs e s r m own gen V M N I) as (f & F & E). rewrite E in *. clear E.
  destruct I as [<- | [<- | [<- | [<- | [<- | []]]]]]; inversion F; subst; clear F.
  - unfold pnc_trigger in *. destruct (has (cpo_name e) || has (organization e)); [| eexists; now left]. exfalso. apply (NT PTrigger). apply TOLD. now left.
  - unfold pnc_signed in *. destruct (data r) as [d | ]; [| eexists; now left]. destruct (parse_signed e d) as [(u, c) | ] eqn:P; [| eexists; now left]. exfalso.
    match type of TOLD with context [if ?b then _ else _] => destruct b end.
    + apply (NT (PSigned false)). apply TOLD. now left.
    + assert (A : asked e "CertificateSigned" (Some d) (OUpdateLeaf UV2G c)) by (apply ST; [exact Logic.I | now left]).
      apply NU in A. destruct (update_leaf e UV2G c) as [i | ]; [| congruence]. apply (NT (PSigned (is_accepted i))). apply TOLD. right. destruct (is_accepted i); now left.
  - unfold pnc_ids in *. destruct (data r) as [d | ]; [| eexists; now left]. destruct (parse_ids e d) as [ks | ] eqn:P; [| eexists; now left].
    destruct (installed e _) as [[ | y l] | ]; [exfalso; apply (NT PNoIds) | exfalso; apply (NT (PIds (y :: l))) | eexists; right; now left]; apply TOLD; right; now left.
  - unfold pnc_delete in *. destruct (data r) as [d | ]; [| eexists; now left]. destruct (parse_delete e d) as [ks | ] eqn:P; [| eexists; now left].
    destruct (delete e ks) as [x | ]; [exfalso; apply (NT (PDelete x)); apply TOLD; right; now left | eexists; right; now left].
  - unfold pnc_install in *. destruct (data r) as [d | ]; [| eexists; now left]. destruct (parse_install e d) as [(k, c) | ] eqn:P; [| eexists; now left].
    destruct (install e k c) as [x | ]; [exfalso; apply (NT (PInstall (to_status x))); apply TOLD; right; now left | eexists; right; now left].
Qed.
Print Assumptions C118_rejected.
(** Then the CSMS reads Accepted, and nothing else. *)
Theorem C118_throws_refuted : exists e r, runs e s0 [Receive r (fun _ => None) None] = [OUpdateLeaf UV2G "bad"; OConf DAccepted None].
Proof. exists e0, {| vendor := pnc_vendor; message := Some "CertificateSigned"; data := Some "bad" |}. vm_compute. reflexivity. Qed.
Print Assumptions C118_throws_refuted.

(** After a leaf was installed the OCSP cache is brought up to date; if it was not, an event is noted; a trigger leads to a request. *)
Theorem C118_then e s r m own gen : vendor r = pnc_vendor -> mgmt e = true -> named r m -> In m five ->
  let ls := snd (dt_step e s (Receive r own gen)) in
  (In OOcspNow ls <-> In (OConf DAccepted (Some (PSigned true))) ls) /\
  (forall b, In (OEvent InvalidChargePointCertificate b) ls <-> b = false /\ In (OConf DAccepted (Some (PSigned false))) ls) /\
  (forall c, In (OSignDt c) ls <-> m = "TriggerMessage" /\ exists n, subject e n /\ csr e UV2G n = Some c) /\
  (forall b, In (OEvent CsrGenerationFailed b) ls <-> b = false /\ m = "TriggerMessage" /\ exists n, subject e n /\ csr e UV2G n = None).
Proof.
  intros V M N I ls. destruct (pnc_outs e s r m own gen V M N I) as (f & F & E). subst ls. rewrite E. clear E.
  assert (NO : forall ls : list out, m <> "TriggerMessage" -> (forall c, ~ In (OSignDt c) ls) -> (forall b, ~ In (OEvent CsrGenerationFailed b) ls) ->
    (forall c, In (OSignDt c) ls <-> m = "TriggerMessage" /\ exists n, subject e n /\ csr e UV2G n = Some c) /\
    (forall b, In (OEvent CsrGenerationFailed b) ls <-> b = false /\ m = "TriggerMessage" /\ exists n, subject e n /\ csr e UV2G n = None)).
  { intros ls A B C. split; [intros c; split; [intros X; now apply B in X | intros (X & _); congruence] | intros b; split; [intros X; now apply C in X | intros (_ & X & _); congruence]]. }
  assert (NS : forall ls : list out, ~ In OOcspNow ls -> (forall b, ~ In (OEvent InvalidChargePointCertificate b) ls) -> (forall b, ~ In (OConf DAccepted (Some (PSigned b))) ls) ->
    (In OOcspNow ls <-> In (OConf DAccepted (Some (PSigned true))) ls) /\
    (forall b, In (OEvent InvalidChargePointCertificate b) ls <-> b = false /\ In (OConf DAccepted (Some (PSigned false))) ls)).
  { intros ls A B C. split; [split; intros X; [now apply A in X | now apply C in X] |]. intros b. split; [intros X; now apply B in X | intros (_ & X); now apply C in X]. }
  destruct I as [<- | [<- | [<- | [<- | [<- | []]]]]]; inversion F; subst; clear F.
  - unfold pnc_trigger, pnc_sign. destruct (subject_dec e) as [(n & B & NN & C) | (B & C)]; rewrite C.
    + rewrite <- negb_orb, C, NN. cbn [negb]. split; [| split; [| split]].
      * destruct (csr e UV2G n); cbn; split; intuition discriminate.
      * intros b. destruct (csr e UV2G n); cbn; split; intuition discriminate.
      * intros c. split.
        -- intros [X | [X | X]]; try discriminate. split; auto. exists n. split; auto. destruct (csr e UV2G n); cbn in X; destruct X as [X | []]; inversion X; auto.
        -- intros (_ & n' & B' & Y). assert (n' = n) by (eapply subject_fun; eauto). subst. rewrite Y. cbn. auto.
      * intros b. split.
        -- intros [X | [X | X]]; try discriminate. destruct (csr e UV2G n) eqn:Y; cbn in X; destruct X as [X | []]; inversion X; split; auto. split; auto. eauto.
        -- intros (-> & _ & n' & B' & Y). assert (n' = n) by (eapply subject_fun; eauto). subst. rewrite Y. cbn. auto.
    + cbn. split; [| split; [| split]].
      * split; intuition discriminate.
      * intros b. split; intuition discriminate.
      * intros c. split; [intuition discriminate | intros (_ & n & X & _); now apply B in X].
      * intros b. split; [intuition discriminate | intros (_ & _ & n & X & _); now apply B in X].
  - assert (W : forall P Q R S : Prop, (P /\ Q) -> (R /\ S) -> P /\ Q /\ R /\ S) by tauto. apply W; clear W.
    + clear NS NO. unfold pnc_signed. destruct (data r) as [x | ]; [destruct (parse_signed e x) as [(u, c) | ]|].
      2-3: cbn; split; [split; intuition discriminate | intros b; split; intuition discriminate].
      match goal with |- context [if ?b then _ else _] => destruct b end; [| destruct (update_leaf e UV2G c) as [i | ]; [destruct (is_accepted i) |]]; cbn;
        (split; [split; intuition discriminate | intros b; split; [intros X; repeat destruct X as [X | X]; inversion X; auto | intros (-> & X); repeat destruct X as [X | X]; inversion X; auto]]).
    + apply NO; [discriminate | |]; intros y; unfold pnc_signed; (destruct (data r) as [x | ]; [destruct (parse_signed e x) as [(u, c) | ]|]; try (cbn; intuition discriminate);
      match goal with |- context [if ?b then _ else _] => destruct b end; [| destruct (update_leaf e UV2G c) as [i | ]; [destruct (is_accepted i) |]]; cbn; intuition discriminate).
  - assert (W : forall P Q R S : Prop, (P /\ Q) -> (R /\ S) -> P /\ Q /\ R /\ S) by tauto. apply W; clear W.
    + apply NS; [| intros y | intros y]; unfold pnc_ids; (destruct (data r) as [x | ]; [destruct (parse_ids e x) as [o | ]|]; try (cbn; intuition discriminate); destruct (installed e _) as [[ | z l] | ]; cbn; intuition discriminate).
    + apply NO; [discriminate | |]; intros y; unfold pnc_ids; (destruct (data r) as [x | ]; [destruct (parse_ids e x) as [o | ]|]; try (cbn; intuition discriminate); destruct (installed e _) as [[ | z l] | ]; cbn; intuition discriminate).
  - assert (W : forall P Q R S : Prop, (P /\ Q) -> (R /\ S) -> P /\ Q /\ R /\ S) by tauto. apply W; clear W.
    + apply NS; [| intros y | intros y]; unfold pnc_delete; (destruct (data r) as [x | ]; [destruct (parse_delete e x) as [o | ]|]; try (cbn; intuition discriminate); destruct (delete e o); cbn; intuition discriminate).
    + apply NO; [discriminate | |]; intros y; unfold pnc_delete; (destruct (data r) as [x | ]; [destruct (parse_delete e x) as [o | ]|]; try (cbn; intuition discriminate); destruct (delete e o); cbn; intuition discriminate).
  - assert (W : forall P Q R S : Prop, (P /\ Q) -> (R /\ S) -> P /\ Q /\ R /\ S) by tauto. apply W; clear W.
    + apply NS; [| intros y | intros y]; unfold pnc_install; (destruct (data r) as [x | ]; [destruct (parse_install e x) as [(k, o) | ]|]; try (cbn; intuition discriminate); destruct (install e k o); cbn; intuition discriminate).
    + apply NO; [discriminate | |]; intros y; unfold pnc_install; (destruct (data r) as [x | ]; [destruct (parse_install e x) as [(k, o) | ]|]; try (cbn; intuition discriminate); destruct (install e k o); cbn; intuition discriminate).
Qed.
Print Assumptions C118_then.
(** A negative CertificateSignedMaxChainSize is no limit at all. *)
Theorem C118_negative_refuted : exists e r m, max_chain e = Some m /\ m < 0 /\ runs e s0 [Receive r (fun _ => None) None] = [OUpdateLeaf UV2G "chain"; OConf DAccepted (Some (PSigned true)); OOcspNow].
Proof. exists e0, {| vendor := pnc_vendor; message := Some "CertificateSigned"; data := Some "chain" |}, (-1). split; [reflexivity |]. split; [lia |]. vm_compute. reflexivity. Qed.
Print Assumptions C118_negative_refuted.
(** An accepted trigger may lead to nothing. *)
Theorem C118_trigger_refuted : exists e r, runs e s0 [Receive r (fun _ => None) None] = [OConf DAccepted (Some PTrigger); OCsr UV2G "CPO"; OEvent CsrGenerationFailed false].
Proof. exists e0, {| vendor := pnc_vendor; message := Some "TriggerMessage"; data := None |}. vm_compute. reflexivity. Qed.
Print Assumptions C118_trigger_refuted.

(** ** The requests of the security extension *)

(** SignCertificate.req is sent iff a name is set and the signing request could be made, otherwise an event is noted. *)
Theorem C118_sign e u t :
  (forall c b, In (OSign c b) (sign e u t) <-> b = t /\ exists n, cpo_name e = Some n /\ csr e u n = Some c) /\
  (forall b, In (OEvent CsrGenerationFailed b) (sign e u t) <-> b = false /\ forall n, cpo_name e = Some n -> csr e u n = None) /\
  (forall u' n, In (OCsr u' n) (sign e u t) <-> u' = u /\ cpo_name e = Some n).
Proof.
  unfold sign. destruct (cpo_name e) as [n | ].
  - destruct (csr e u n) as [c | ] eqn:C; cbn; (split; [| split]).
    + intros c' b. split; [intros [X | [X | []]]; inversion X; subst; eauto | intros (-> & n' & X & Y); inversion X; subst; rewrite C in Y; inversion Y; auto].
    + intros b. split; [intros [X | [X | []]]; inversion X | intros (_ & X); specialize (X n eq_refl); congruence].
    + intros u' n'. split; [intros [X | [X | []]]; inversion X; auto | intros (-> & X); inversion X; auto].
    + intros c' b. split; [intros [X | [X | []]]; inversion X | intros (-> & n' & X & Y); inversion X; subst; congruence].
    + intros b. split; [intros [X | [X | []]]; inversion X; split; auto; intros n' Y; inversion Y; subst; auto | intros (-> & _); auto].
    + intros u' n'. split; [intros [X | [X | []]]; inversion X; auto | intros (-> & X); inversion X; auto].
  - cbn. split; [| split].
    + intros c' b. split; [intros [X | []]; inversion X | intros (_ & n & X & _); discriminate].
    + intros b. split; [intros [X | []]; inversion X; split; auto; discriminate | intros (-> & _); auto].
    + intros u' n. split; [intros [X | []]; inversion X | intros (_ & X); discriminate].
Qed.
Print Assumptions C118_sign.

(** CertificateSigned.req is accepted iff the store took the certificate of the station; then, with security profile 3, the station
    connects anew, otherwise an event is sent. *)
Theorem C118_signed e chain : let ls := signed e chain in
  (forall u c, In (OUpdateLeaf u c) ls <-> u = UStation /\ c = chain) /\
  (forall b, In (OSigned b) ls <-> exists i, update_leaf e UStation chain = Some i /\ (b = true <-> i = IAccepted)) /\
  (In OReconnect ls <-> In (OSigned true) ls /\ sec_profile e = 3) /\
  (In (OEvent InvalidChargePointCertificate true) ls <-> In (OSigned false) ls) /\
  (In OCallError ls <-> update_leaf e UStation chain = None).
Proof.
  intros ls. subst ls. unfold signed.
  assert (ACC : forall i b, b = is_accepted i <-> (b = true <-> i = IAccepted)) by (intros [ ] [ | ]; cbn; split; intros; try discriminate; auto; try (split; congruence); destruct H as (H1 & H2); try (specialize (H1 eq_refl); discriminate); specialize (H2 eq_refl); discriminate).
  destruct (update_leaf e UStation chain) as [i | ].
  - destruct (is_accepted i) eqn:A.
    + destruct (Z.eqb_spec (sec_profile e) 3); cbn; (split; [| split; [| split; [| split]]]).
      all: try (split; intuition discriminate).
      1,3: intros u c; split; [intuition congruence | intros (-> & ->); auto].
      1,2: intros b; split; [intros X; exists i; split; auto; rewrite <- (ACC i b); intuition congruence | intros (j & X & Y); inversion X; subst; apply ACC in Y; right; left; congruence].
    + cbn; (split; [| split; [| split; [| split]]]). all: try (split; intuition discriminate).
      * intros u c; split; [intuition congruence | intros (-> & ->); auto].
      * intros b; split; [intros X; exists i; split; auto; rewrite <- (ACC i b); intuition congruence | intros (j & X & Y); inversion X; subst; apply ACC in Y; right; left; congruence].
  - cbn; (split; [| split; [| split; [| split]]]). all: try (split; intuition discriminate).
    + intros u c; split; [intuition congruence | intros (-> & ->); auto].
    + intros b. split; [intuition discriminate | intros (j & X & _); discriminate].
Qed.
Print Assumptions C118_signed.
(** CertificateSignedMaxChainSize is not heeded there. *)
Theorem C118_size_refuted : exists e chain m, max_chain e = Some m /\ 0 <= m < Z.of_nat (String.length chain) /\ signed e chain = [OUpdateLeaf UStation chain; OSigned true].
Proof.
  exists {| pnc_profile := true; cert_mgmt := true; cpo_name := None; organization := None; csr := fun _ _ => None; max_chain := Some 2; sec_profile := 1;
    parse_signed := fun _ => None; parse_ids := fun _ => None; parse_delete := fun _ => None; parse_install := fun _ => None;
    update_leaf := fun _ _ => Some IAccepted; installed := fun _ => None; delete := fun _ => None; install := fun _ _ => None |}, "chain", 2.
  split; [reflexivity |]. split; [cbn; lia |]. vm_compute. reflexivity.
Qed.
Print Assumptions C118_size_refuted.

(** The other requests: the store is asked for what the request names, and its word is the answer. *)
Theorem C118_installed e u : exists k, (k = KCsmsRoot <-> u = CentralSystemRoot) /\ (k = KMfRoot <-> u = ManufacturerRoot) /\
  (forall x, In (OInstalled x) (get_ids e u) <-> x = [k]) /\
  (forall l, In (OIds (Some l)) (get_ids e u) <-> l <> [] /\ installed e [k] = Some l) /\
  (In (OIds None) (get_ids e u) <-> installed e [k] = Some []) /\ (In OCallError (get_ids e u) <-> installed e [k] = None).
Proof.
  assert (G : forall k, (forall x, In (OInstalled x) (OInstalled [k] :: match installed e [k] with None => [OCallError] | Some [] => [OIds None] | Some l => [OIds (Some l)] end) <-> x = [k]) /\
    (forall l, In (OIds (Some l)) (OInstalled [k] :: match installed e [k] with None => [OCallError] | Some [] => [OIds None] | Some l => [OIds (Some l)] end) <-> l <> [] /\ installed e [k] = Some l) /\
    (In (OIds None) (OInstalled [k] :: match installed e [k] with None => [OCallError] | Some [] => [OIds None] | Some l => [OIds (Some l)] end) <-> installed e [k] = Some []) /\
    (In OCallError (OInstalled [k] :: match installed e [k] with None => [OCallError] | Some [] => [OIds None] | Some l => [OIds (Some l)] end) <-> installed e [k] = None)).
  { intros k. destruct (installed e [k]) as [[ | y l] | ]; cbn; (split; [| split; [| split]]); intros; split; intros X; repeat match goal with Y : _ \/ _ |- _ => destruct Y as [Y | Y] | Y : False |- _ => destruct Y | Y : _ /\ _ |- _ => destruct Y end; try discriminate; try congruence; auto.
    - left. congruence.
    - left. congruence.
    - inversion X; split; congruence.
    - right. left. congruence.
    - left. congruence. }
  destruct u; [exists KCsmsRoot | exists KMfRoot]; (split; [split; auto; discriminate | split; [split; auto; discriminate |]]); apply G.
Qed.
Print Assumptions C118_installed.
Theorem C118_deleted e h : let ls := delete_cert e h in
  (forall x, In (ODelete x) ls <-> x = h) /\ (forall d, In (ODeleted d) ls <-> delete e h = Some d) /\ (In OCallError ls <-> delete e h = None).
Proof.
  intros ls. subst ls. unfold delete_cert. destruct (delete e h) as [d | ]; cbn; (split; [| split]); intros; split; intros X; repeat match goal with Y : _ \/ _ |- _ => destruct Y as [Y | Y] | Y : False |- _ => destruct Y end; try discriminate; try congruence; auto.
  - left. congruence.
  - right. left. congruence.
  - left. congruence.
Qed.
Print Assumptions C118_deleted.
Theorem C118_install e u cert : exists k, (k = KCsmsRoot <-> u = CentralSystemRoot) /\ (k = KMfRoot <-> u = ManufacturerRoot) /\
  let ls := install_cert e u cert in
  (forall k' c, In (OInstall k' c) ls <-> k' = k /\ c = cert) /\
  (forall s, In (OInstalledConf s) ls <-> exists i, install e k cert = Some i /\ worth i s) /\
  (forall b, In (OEvent InvalidCentralSystemCertificate b) ls <-> b = false /\ In (OInstalledConf SRejected) ls) /\
  (In OCallError ls <-> install e k cert = None).
Proof.
  assert (G : forall k, let ls := OInstall k cert :: match install e k cert with None => [OCallError]
      | Some x => let s := match x with IAccepted => SAccepted | WriteError => SFailed | _ => SRejected end in
          OInstalledConf s :: match s with SRejected => [OEvent InvalidCentralSystemCertificate false] | _ => [] end end in
    (forall k' c, In (OInstall k' c) ls <-> k' = k /\ c = cert) /\
    (forall s, In (OInstalledConf s) ls <-> exists i, install e k cert = Some i /\ worth i s) /\
    (forall b, In (OEvent InvalidCentralSystemCertificate b) ls <-> b = false /\ In (OInstalledConf SRejected) ls) /\
    (In OCallError ls <-> install e k cert = None)).
  { intros k ls. subst ls. destruct (install e k cert) as [i | ].
    - assert (W : worth i (match i with IAccepted => SAccepted | WriteError => SFailed | _ => SRejected end)) by (destruct i; split; split; intros; try discriminate; auto).
      set (s := match i with IAccepted => SAccepted | WriteError => SFailed | _ => SRejected end) in *. cbv zeta. split; [| split; [| split]].
      + intros k' c. split; [intros [X | [X | X]]; [inversion X; auto | discriminate | destruct s; cbn in X; intuition discriminate] | intros (-> & ->); now left].
      + intros s'. split.
        * intros [X | [X | X]]; [discriminate | inversion X; subst s'; eauto | destruct s; cbn in X; intuition discriminate].
        * intros (j & X & Y). inversion X; subst j. right. left. f_equal. eapply worth_fun; eauto.
      + intros b. destruct s; cbn; split; intros X; repeat match goal with Y : _ \/ _ |- _ => destruct Y as [Y | Y] | Y : False |- _ => destruct Y | Y : _ /\ _ |- _ => destruct Y end; try discriminate; try congruence; auto.
        * inversion X; auto.
        * subst; auto.
      + destruct s; cbn; split; intuition discriminate.
    - cbn. split; [| split; [| split]].
      + intros k' c. split; [intros [X | [X | []]]; inversion X; auto | intros (-> & ->); auto].
      + intros s. split; [intuition discriminate | intros (j & X & _); discriminate].
      + intros b. split; intuition discriminate.
      + split; auto. }
  destruct u; [exists KCsmsRoot | exists KMfRoot]; (split; [split; auto; discriminate | split; [split; auto; discriminate |]]); apply G.
Qed.
Print Assumptions C118_install.
(** A certificate of the manufacturer that is not valid is noted as one of the central system. *)
Theorem C118_event_refuted : exists e cert, In (OEvent InvalidCentralSystemCertificate false) (install_cert e ManufacturerRoot cert).
Proof. exists e0, "c". vm_compute. auto. Qed.
Print Assumptions C118_event_refuted.

(** The OCSP cache: the status of each certificate is asked for, in order, and each result is stored - whatever becomes of others. *)
Theorem C118_ocsp certs ans :
  (forall c r, In (OOcspCache c r) (update_ocsp certs ans) <-> In c certs /\ ans c = Read true (Some r)) /\
  filter (fun o => match o with OStatusReq _ => true | _ => false end) (update_ocsp certs ans) = map OStatusReq certs.
Proof.
  split.
  - intros c r. unfold update_ocsp. rewrite in_flat_map. split.
    + intros (x & I & H). destruct H as [H | H]; [discriminate |]. destruct (ans x) as [ | [ | ] [y | ]] eqn:A; cbn in H; try tauto. destruct H as [H | []]. inversion H; subst. auto.
    + intros (I & A). exists c. split; auto. unfold get_status. rewrite A. cbn. auto.
  - unfold update_ocsp. induction certs as [ | c l IH]; auto. cbn [flat_map map]. rewrite filter_app, IH. unfold get_status. destruct (ans c) as [ | [ | ] [y | ]]; reflexivity.
Qed.
Print Assumptions C118_ocsp.

Example C118_example : runs e0 s0 (map (fun m => Receive {| vendor := pnc_vendor; message := Some m; data := Some "d" |} (fun _ => None) None) five)
  = [OConf DAccepted (Some PTrigger); OCsr UV2G "CPO"; OEvent CsrGenerationFailed false;
     OUpdateLeaf UV2G "d"; OConf DAccepted (Some (PSigned true)); OOcspNow; OInstalled []; OConf DAccepted (Some (PIds ["a"]));
     ODelete "d"; OConf DAccepted (Some (PDelete DelNotFound)); OInstall KV2GRoot "d"; OConf DAccepted (Some (PInstall SRejected))].
Proof. vm_compute. reflexivity. Qed.
Definition e1 : env := {| pnc_profile := true; cert_mgmt := true; cpo_name := Some "CPO"; organization := None; csr := fun _ _ => Some "csr"; max_chain := Some 3; sec_profile := 3;
  parse_signed := fun d => if String.eqb d "long" then Some (None, "long") else None; parse_ids := fun _ => None; parse_delete := fun _ => None; parse_install := fun _ => None;
  update_leaf := fun _ _ => Some Expired; installed := fun _ => None; delete := fun _ => None; install := fun _ _ => Some WriteError |}.
Example C118_example_sane : sane e1 /\ ~ fits e1 "long" /\ told e1 "CertificateSigned" (Some "long") (PSigned false) /\ (forall p, ~ told e1 "CertificateSigned" (Some "x") p).
Proof.
  assert (NF : ~ fits e1 "long") by (intros X; specialize (X 3 eq_refl); cbn in X; lia).
  split; [| split; [auto | split]].
  - split; [intros m X; inversion X; lia |]. intros d u c X. cbn in X. destruct (String.eqb d "long"); inversion X; subst. cbn. lia.
  - now apply t_long with None "long".
  - intros p X. inversion X; subst; discriminate.
Qed.
