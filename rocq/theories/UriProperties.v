(** C41 and C66: credentials and address of the central system. *)
From Coq Require Import String Ascii ZArith List Bool Lia.
From Verif Require Import UriModel UriSpec UriProofs UriProofs2.
Import ListNotations.
Local Open Scope Z_scope.

(** ** C41 *)

(** The encoding is that of RFC 4648. *)
Theorem base64_is_rfc4648 : forall l, bytes l -> base64_encode l = rfc4648 l.
Proof. exact encode_rfc. Qed.
Print Assumptions base64_is_rfc4648.
Example base64_example : base64_encode (txt "cp:pwd!") = txt "Y3A6cHdkIQ==".
Proof. reflexivity. Qed.
Theorem base64_round_trip : forall l, bytes l -> base64_decode (base64_encode l) = l.
Proof. exact decode_encode. Qed.
Print Assumptions base64_round_trip.
Example base64_round_trip_example : base64_decode (base64_encode [0; 255; 128; 61; 7]) = [0; 255; 128; 61; 7].
Proof. reflexivity. Qed.
Theorem base64_injective : forall l m, bytes l -> bytes m -> base64_encode l = base64_encode m -> l = m.
Proof. intros l m L M E. rewrite <- (decode_encode l L), <- (decode_encode m M), E. reflexivity. Qed.
Print Assumptions base64_injective.
Example base64_injective_example : base64_encode [1; 2] <> base64_encode [1; 2; 0].
Proof. discriminate. Qed.

(** A server that decodes the header by RFC 4648 and takes it apart by RFC 7617 finds the identity and the key, and only
    them. *)
Theorem header_reads_back : forall id key, bytes id -> bytes key -> ~ In 58 id ->
  (exists l, bytes l /\ authorization_header id (Some key) = Some (txt "Basic " ++ rfc4648 l)) /\
  (forall l, bytes l -> authorization_header id (Some key) = Some (txt "Basic " ++ rfc4648 l) -> credentials l = (id, key)).
Proof.
  intros id key I K N. assert (B : bytes (id ++ txt ":" ++ key)).
  { apply Forall_app. split; [exact I|]. constructor; [cbn; lia|exact K]. }
  split.
  - exists (id ++ txt ":" ++ key). split; [exact B|]. cbn [authorization_header]. rewrite encode_rfc by exact B. reflexivity.
  - intros l L E. cbn [authorization_header] in E. apply (f_equal (fun o => match o with Some x => skipn 6 x | None => [] end)) in E.
    change 6%nat with (length (txt "Basic ")) in E. rewrite !skipn_app_exact in E. rewrite <- (encode_rfc l L) in E.
    apply (base64_injective _ _ B L) in E. subst l. apply (credentials_of id key N).
Qed.
Print Assumptions header_reads_back.
Example header_example : authorization_header (txt "CP1") (Some (txt "a:b")) = Some (txt "Basic Q1AxOmE6Yg==") /\ ~ In 58 (txt "CP1").
Proof. split; [reflexivity|]. cbn. intuition discriminate. Qed.
Theorem header_injective : forall id1 key1 id2 key2, bytes id1 -> bytes key1 -> bytes id2 -> bytes key2 ->
  ~ In 58 id1 -> ~ In 58 id2 ->
  authorization_header id1 (Some key1) = authorization_header id2 (Some key2) -> id1 = id2 /\ key1 = key2.
Proof.
  intros id1 k1 id2 k2 I1 K1 I2 K2 N1 N2 E. destruct (header_reads_back id1 k1 I1 K1 N1) as [(l&L&H) U1].
  destruct (header_reads_back id2 k2 I2 K2 N2) as [_ U2]. pose proof (U1 l L H) as X. rewrite E in H. pose proof (U2 l L H) as Y.
  split; congruence.
Qed.
Print Assumptions header_injective.
(** Without the condition it is false: an identity with a colon gives the header of another charging station. *)
Theorem header_collision_refuted : exists id1 key1 id2 key2, bytes id1 /\ bytes key1 /\ bytes id2 /\ bytes key2 /\
  authorization_header id1 (Some key1) = authorization_header id2 (Some key2) /\ id1 <> id2.
Proof.
  exists (txt "a"), (txt "b:c"), (txt "a:b"), (txt "c").
  repeat split; try (unfold bytes; repeat constructor; vm_compute; intuition discriminate); discriminate.
Qed.
Print Assumptions header_collision_refuted.
(** The key leaves the station only in the profiles with basic authentication, and never without being asked for. *)
Theorem header_only_with_basic_auth : forall profile id key h, header_sent profile id key = Some h ->
  (profile = 1 \/ profile = 2) /\ exists k, key = Some k /\ h = txt "Basic " ++ base64_encode (id ++ txt ":" ++ k).
Proof.
  intros profile id key h E. unfold header_sent in E. destruct ((profile =? 1) || (profile =? 2)) eqn:P; [|discriminate E].
  apply orb_true_iff in P. rewrite !Z.eqb_eq in P. split; [exact P|]. destruct key as [k|]; [|discriminate E]. exists k. split; [reflexivity|].
  cbn [authorization_header] in E. congruence.
Qed.
Print Assumptions header_only_with_basic_auth.
Theorem header_with_basic_auth : forall profile id k, profile = 1 \/ profile = 2 ->
  header_sent profile id (Some k) = Some (txt "Basic " ++ base64_encode (id ++ txt ":" ++ k)).
Proof. intros profile id k [-> | ->]; reflexivity. Qed.
Print Assumptions header_with_basic_auth.
Example header_sent_example : header_sent 1 (txt "CP1") (Some (txt "a:b")) = Some (txt "Basic Q1AxOmE6Yg==") /\
  header_sent 3 (txt "CP1") (Some (txt "a:b")) = None.
Proof. split; reflexivity. Qed.

(** ** C66 *)

Definition known (profile : Z) : Prop := 0 <= profile <= 3.
Definition tls (profile : Z) : Prop := profile = 2 \/ profile = 3.

(** An accepted address is contacted over TLS exactly when the security profile asks for it. *)
Theorem tls_exactly_when_profile_asks : forall s id profile c, known profile -> parse_and_validate s id profile = Ok c ->
  (c_secure c = true <-> tls profile).
Proof.
  intros s id profile c K P. unfold known, tls in *. destruct s as [|s0 s]; [discriminate P|]. destruct id as [|i0 id]; [discriminate P|].
  rewrite validate_unfold in P by discriminate. cbv zeta in P. destruct (contains (txt "://") (s0 :: s)); cbn [negb andb] in P.
  - destruct (parse (s0 :: s)) as [u| |]; try discriminate P. destruct (u_valid u); cbn [negb] in P; [|discriminate P].
    destruct ((profile =? 0) || (profile =? 1)) eqn:E1.
    + apply orb_true_iff in E1. rewrite !Z.eqb_eq in E1. destruct (u_secure u) eqn:S; [discriminate P|]. injection P as <-. cbn [c_secure].
      try rewrite S. split; [discriminate|lia].
    + apply orb_false_iff in E1. rewrite !Z.eqb_neq in E1. destruct ((profile =? 2) || (profile =? 3)) eqn:E2; [|discriminate P].
      apply orb_true_iff in E2. rewrite !Z.eqb_eq in E2. destruct (u_secure u) eqn:S; cbn [negb] in P; [|discriminate P]. injection P as <-. cbn [c_secure].
      try rewrite S. split; [intros _; exact E2|reflexivity].
  - destruct (parse _) as [u| |] eqn:PA; try discriminate P. destruct (u_valid u) eqn:V; cbn [negb] in P; [|discriminate P]. injection P as <-. cbn [c_secure].
    destruct (2 <=? profile) eqn:L.
    + assert (u_secure u = true) as ->.
      { unfold parse in PA. destruct (scheme_read Wss (s0 :: s)) as (t&R); [discriminate|discriminate|]. cbn [scheme_text] in R. rewrite R in PA.
        destruct (read_authority (s0 :: s)) as [[[a b] d]|]; [|injection PA as <-; reflexivity].
        destruct b; [destruct (read_to 47 d) as [[x y] z]|]; (destruct (port_from_string true _) as [[n v]| |]; [injection PA as <-; reflexivity|discriminate PA|discriminate PA]). }
      split; [intros _; lia|reflexivity].
    + assert (u_secure u = false) as ->.
      { unfold parse in PA. destruct (scheme_read Ws (s0 :: s)) as (t&R); [discriminate|discriminate|]. cbn [scheme_text] in R. rewrite R in PA.
        destruct (read_authority (s0 :: s)) as [[[a b] d]|]; [|injection PA as <-; reflexivity].
        destruct b; [destruct (read_to 47 d) as [[x y] z]|]; (destruct (port_from_string false _) as [[n v]| |]; [injection PA as <-; reflexivity|discriminate PA|discriminate PA]). }
      split; [discriminate|lia].
Qed.
Print Assumptions tls_exactly_when_profile_asks.

Lemma has_marker : forall s h p r, s <> NoScheme -> contains (txt "://") (address s h p r) = true.
Proof.
  intros s h p r N. apply contains_spec. unfold address. set (x := host_text h ++ port_part p ++ path_text r).
  destruct s; [congruence|exists (txt "ws"), x|exists (txt "wss"), x|exists (txt "http"), x|exists (txt "https"), x]; reflexivity.
Qed.
Lemma address_nonempty : forall s h p r, host_ok h -> address s h p r <> [].
Proof.
  intros s h p r O E. unfold address in E. apply app_eq_nil in E. destruct E as [_ E]. apply app_eq_nil in E.
  exact (host_nonempty h O (proj1 E)).
Qed.
(** Every well-formed address that fits the profile is accepted and means what it says: the host, the port or the default
    port, and a path in which the identity is the last segment, whether or not the address ended in it. *)
Theorem address_understood_partial : forall s h p r id profile secure n path, known profile -> (secure = true <-> tls profile) ->
  host_ok h -> id <> [] -> scheme_fits s profile -> (s = NoScheme -> forall a b, address s h p r <> a ++ txt "://" ++ b) ->
  port_ok p secure n -> bare r id -> directory r id path ->
  exists c, parse_and_validate (address s h p r) id profile = Ok c /\
    c_secure c = secure /\ c_id c = id /\ c_path c = path /\ target c = (host_name h, n, path ++ id).
Proof.
  intros s h p r id profile secure n path K T O I F M P B D. exists (C secure (host_name h) n path id). unfold known, tls in *.
  split; [|repeat split]. rewrite validate_unfold by (exact I || apply address_nonempty; exact O). cbv zeta.
  destruct (match s with NoScheme => true | _ => false end) eqn:SN.
  - assert (s = NoScheme) as -> by (destruct s; congruence || discriminate SN). clear SN. specialize (M eq_refl).
    replace (contains (txt "://") (address NoScheme h p r)) with false.
    2:{ symmetry. destruct (contains _ _) eqn:X; [|reflexivity]. apply contains_spec in X. destruct X as (a&b&X). elim (M a b X). }
    cbn [negb andb].
    assert (X : exists t, parse ((if 2 <=? profile then txt "wss://" else txt "ws://") ++ address NoScheme h p r) =
                Ok (U secure t (host_name h) n (47 :: rest r) true)).
    { destruct (2 <=? profile) eqn:L.
      - assert (secure = true) by (apply T; lia). subst secure. exact (parse_address Wss h p r n ltac:(discriminate) O P).
      - assert (secure = false) by (destruct secure; [assert (profile = 2 \/ profile = 3) by (apply T; reflexivity); lia|reflexivity]). subst secure.
        exact (parse_address Ws h p r n ltac:(discriminate) O P). }
    destruct X as (t&X). rewrite X. cbn [u_valid negb u_secure u_host u_port u_resource]. rewrite (base_path_spec r id path I B D). reflexivity.
  - assert (N : s <> NoScheme) by (intros ->; discriminate SN). clear SN M. rewrite (has_marker s h p r N). cbn [negb andb].
    assert (S : secure = match s with Wss | Https => true | _ => false end).
    { destruct s; cbn [scheme_fits] in F; [congruence| | | |]; destruct secure; try reflexivity;
        first [assert (profile = 2 \/ profile = 3) by (apply T; reflexivity); lia | assert (false = true) by (apply T; lia); discriminate]. }
    rewrite S in P. destruct (parse_address s h p r n N O P) as (t&X). rewrite X. cbn [u_valid negb u_secure u_host u_port u_resource].
    rewrite (base_path_spec r id path I B D), <- S.
    replace (if (profile =? 0) || (profile =? 1) then secure else if (profile =? 2) || (profile =? 3) then negb secure else true) with false; [reflexivity|].
    assert (Q : profile = 0 \/ profile = 1 \/ profile = 2 \/ profile = 3) by lia.
    assert (T0 : profile = 0 \/ profile = 1 -> secure = false).
    { intros Q0. destruct secure; [|reflexivity]. assert (profile = 2 \/ profile = 3) by (apply T; reflexivity). lia. }
    destruct Q as [-> | [-> | [-> | ->]]]; cbn; [symmetry; apply T0; lia|symmetry; apply T0; lia| |]; replace secure with true by (symmetry; apply T; lia); reflexivity.
Qed.
Print Assumptions address_understood_partial.
Example address_example : parse_and_validate (txt "wss://csms.example:8443/ocpp/CP1") (txt "CP1") 3 =
    Ok (C true (txt "csms.example") 8443 (txt "/ocpp/") (txt "CP1")) /\
  address Wss (Name (txt "csms.example")) (Some (txt "8443")) (Some (txt "ocpp/CP1")) = txt "wss://csms.example:8443/ocpp/CP1" /\
  directory (Some (txt "ocpp/CP1")) (txt "CP1") (txt "/ocpp/") /\ bare (Some (txt "ocpp/CP1")) (txt "CP1").
Proof.
  split; [reflexivity|]. split; [reflexivity|]. split.
  - left. exists (txt "ocpp/"). split; [|reflexivity]. repeat split; [cbn; intuition discriminate|discriminate|right; exists (txt "ocpp"); reflexivity|left; reflexivity].
  - intros b E. apply (f_equal (fun l => last l 0)) in E. rewrite app_assoc, last_last in E. discriminate E.
Qed.
Example address_v6_example : parse_and_validate (txt "[::1]:9000") (txt "CP1") 1 = Ok (C false (txt "::1") 9000 (txt "/") (txt "CP1")).
Proof. reflexivity. Qed.
(** The part that is missing: an address that ends in the identity and a slash gets the identity a second time. *)
Theorem address_with_slash : forall s h p before id profile secure n, known profile -> (secure = true <-> tls profile) ->
  host_ok h -> id <> [] -> scheme_fits s profile -> s <> NoScheme -> port_ok p secure n ->
  exists c, parse_and_validate (address s h p (Some (before ++ id ++ [47]))) id profile = Ok c /\
    target c = (host_name h, n, (47 :: before ++ id ++ [47]) ++ id).
Proof.
  intros s h p before id profile secure n K T O I F N P. exists (C secure (host_name h) n (47 :: before ++ id ++ [47]) id). unfold known, tls in *.
  split; [|reflexivity]. rewrite validate_unfold by (exact I || apply address_nonempty; exact O). cbv zeta.
  rewrite (has_marker s h p _ N). cbn [negb andb].
  assert (S : secure = match s with Wss | Https => true | _ => false end).
  { destruct s; cbn [scheme_fits] in F; [congruence| | | |]; destruct secure; try reflexivity;
      first [assert (profile = 2 \/ profile = 3) by (apply T; reflexivity); lia | assert (false = true) by (apply T; lia); discriminate]. }
  rewrite S in P. destruct (parse_address s h p (Some (before ++ id ++ [47])) n N O P) as (t&X). rewrite X. cbn [u_valid negb u_secure u_host u_port u_resource rest].
  rewrite <- S.
  replace (if (profile =? 0) || (profile =? 1) then secure else if (profile =? 2) || (profile =? 3) then negb secure else true) with false.
  2:{ assert (Q : profile = 0 \/ profile = 1 \/ profile = 2 \/ profile = 3) by lia.
      assert (T0 : profile = 0 \/ profile = 1 -> secure = false).
      { intros Q0. destruct secure; [|reflexivity]. assert (profile = 2 \/ profile = 3) by (apply T; reflexivity). lia. }
      destruct Q as [-> | [-> | [-> | ->]]]; cbn; [symmetry; apply T0; lia|symmetry; apply T0; lia| |]; replace secure with true by (symmetry; apply T; lia); reflexivity. }
  do 2 f_equal. unfold base_path, path_split_last_segment.
  assert (E0 : text_eqb (47 :: before ++ id ++ [47]) [47] = false).
  { destruct (text_eqb _ _) eqn:E; [|reflexivity]. apply text_eqb_spec in E. injection E as E. apply app_eq_nil in E. destruct E as [_ E].
    apply app_eq_nil in E. destruct E as [_ E]. discriminate E. }
  rewrite E0. replace (split_last (47 :: before ++ id ++ [47])) with (47 :: before ++ id ++ [47], @nil Z).
  2:{ symmetry. pose proof (split_last_at (47 :: before ++ id) [] (fun x => x)) as Y. cbn [app] in Y. rewrite <- !app_assoc in Y. exact Y. }
  replace (text_eqb [] id) with false by (destruct id; [congruence|reflexivity]).
  unfold with_slash. change (47 :: before ++ id ++ [47]) with ((47 :: before) ++ id ++ [47]). rewrite app_assoc, last_last. reflexivity.
Qed.
Print Assumptions address_with_slash.
Theorem identity_once_refuted : exists s id c, parse_and_validate s id 1 = Ok c /\
  s = txt "ws://csms.example/ocpp/CP1/" /\ id = txt "CP1" /\ target c = (txt "csms.example", 80, txt "/ocpp/CP1/CP1").
Proof. do 3 eexists. repeat split; vm_compute; reflexivity. Qed.
Print Assumptions identity_once_refuted.

(** Whatever is accepted has the form of an address with that host, a port that exists, and a path from slash to slash;
    the identity is the given one. *)
Theorem accepted_address_sound : forall s id profile c, parse_and_validate s id profile = Ok c ->
  c_id c = id /\ id <> [] /\ 1 <= c_port c <= 65535 /\
  (exists q, c_path c = 47 :: q /\ last (c_path c) 0 = 47) /\
  exists sch h p r, s = address sch h p r /\ c_host c = host_name h /\
    (sch = NoScheme \/ scheme_fits sch profile) /\
    ((p = None \/ p = Some []) -> c_port c = if c_secure c then 443 else 80).
Proof.
  intros s id profile c P. destruct s as [|s0 s]; [discriminate P|]. destruct id as [|i0 id]; [discriminate P|].
  rewrite validate_unfold in P by discriminate. cbv zeta in P. remember (i0 :: id) as i. assert (IN : i <> []) by (subst i; discriminate). clear Heqi.
  destruct (contains (txt "://") (s0 :: s)) eqn:CT; cbn [negb andb] in P.
  - destruct (parse (s0 :: s)) as [u| |] eqn:PA; try discriminate P. destruct (u_valid u) eqn:V; cbn [negb] in P; [|discriminate P].
    destruct (parse_inv _ _ PA V) as (sch&h&p&r&N&S&HO&SE&HN&RE&PO&PD).
    destruct (if (profile =? 0) || (profile =? 1) then u_secure u else if (profile =? 2) || (profile =? 3) then negb (u_secure u) else true) eqn:F; [discriminate P|].
    injection P as <-. cbn [c_id c_port c_path c_secure c_host]. split; [reflexivity|]. split; [exact IN|]. split; [exact PO|]. split.
    + rewrite RE. destruct (base_path_shape (rest r) i) as (q&Q1&Q2). exists q. split; [exact Q1|rewrite Q1; exact Q2].
    + exists sch, h, p, r. repeat split; auto. right. rewrite SE in F.
      destruct sch; [congruence| | | |]; cbn [scheme_fits];
        destruct (profile =? 0) eqn:E0; destruct (profile =? 1) eqn:E1; destruct (profile =? 2) eqn:E2; destruct (profile =? 3) eqn:E3; cbn in F; try discriminate F; lia.
  - destruct (parse _) as [u| |] eqn:PA; try discriminate P. destruct (u_valid u) eqn:V; cbn [negb] in P; [|discriminate P].
    injection P as <-. cbn [c_id c_port c_path c_secure c_host].
    destruct (parse_inv _ _ PA V) as (sch&h&p&r&N&S&HO&SE&HN&RE&PO&PD).
    split; [reflexivity|]. split; [exact IN|]. split; [exact PO|]. split.
    + rewrite RE. destruct (base_path_shape (rest r) i) as (q&Q1&Q2). exists q. split; [exact Q1|rewrite Q1; exact Q2].
    + exists NoScheme, h, p, r. repeat split; auto.
      assert (X : sch = if 2 <=? profile then Wss else Ws).
      { destruct (2 <=? profile); destruct sch; try congruence; discriminate S. }
      subst sch. unfold address in *. cbn [scheme_text app]. destruct (2 <=? profile); cbn in S; congruence.
Qed.
Print Assumptions accepted_address_sound.
Example accepted_example : exists c, parse_and_validate (txt "http://10.0.0.1//a") (txt "a") 0 = Ok c /\ target c = (txt "10.0.0.1", 80, txt "//a").
Proof. eexists. split; vm_compute; reflexivity. Qed.

(** Written out again and read again an accepted address is the same, if the host is not an IPv6 address. *)
Theorem written_address_reads_back : forall s id profile c, known profile -> parse_and_validate s id profile = Ok c ->
  host_ok (Name (c_host c)) -> ~ In 47 id -> parse_and_validate (uri_string c) id profile = Ok c.
Proof.
  intros s id profile c K P HO NI. pose proof (tls_exactly_when_profile_asks s id profile c K P) as T.
  destruct (accepted_address_sound s id profile c P) as (CI&IN&PO&(q&Q1&Q2)&_). rewrite Q1 in Q2.
  set (p := if c_port c =? (if c_secure c then 443 else 80) then None else Some (port_text (c_port c))).
  assert (E : uri_string c = address (if c_secure c then Wss else Ws) (Name (c_host c)) p (Some (q ++ id))).
  { unfold uri_string, address, p. rewrite CI, Q1. destruct (c_secure c); cbn [scheme_text host_text path_text]; destruct (c_port c =? _); reflexivity. }
  assert (NE : forall b : list Z, q ++ id <> b ++ id ++ [47]).
  { intros b X. destruct (exists_last IN) as (i&x&IE). apply (f_equal (fun l => last l 0)) in X. rewrite (app_assoc b), last_last in X.
    rewrite IE, app_assoc, last_last in X. apply NI. rewrite IE. apply in_app_iff. right. left. exact X. }
  assert (QD : q = [] \/ exists b, q = b ++ [47]).
  { destruct q as [|x q']; [left; reflexivity|right]. destruct (exists_last (l := x :: q') ltac:(discriminate)) as (b&y&QE). exists b. rewrite QE.
    change (47 :: x :: q') with ([47] ++ (x :: q')) in Q2. rewrite QE, app_assoc, last_last in Q2. subst y. reflexivity. }
  assert (D : directory (Some (q ++ id)) id (47 :: q)).
  { left. exists q. split; [|reflexivity]. repeat split; auto. }
  assert (PK : port_ok p (c_secure c) (c_port c)).
  { unfold p. destruct (c_port c =? (if c_secure c then 443 else 80)) eqn:EP; cbn [port_ok]; [apply Z.eqb_eq; exact EP|].
    split; [apply digits_nonempty|]. split; [|exact PO]. apply digits_decimal. cbn. lia. }
  destruct (address_understood_partial (if c_secure c then Wss else Ws) (Name (c_host c)) p (Some (q ++ id)) id profile (c_secure c) (c_port c) (47 :: q)) as (c'&R&S1&S2&S3&S4); auto.
  - unfold tls, known in *. destruct (c_secure c); cbn [scheme_fits]; [apply T; reflexivity|].
    assert (~ (profile = 2 \/ profile = 3)) by (intros X; apply T in X; discriminate X). lia.
  - destruct (c_secure c); discriminate.
  - rewrite E, R. f_equal. unfold target in S4. destruct c as [cs ch cp cpa ci], c' as [cs' ch' cp' cpa' ci']. cbn in *. congruence.
Qed.
Print Assumptions written_address_reads_back.
Example written_example : exists c, parse_and_validate (txt "csms.example:8080") (txt "CP1") 2 = Ok c /\
  uri_string c = txt "wss://csms.example:8080/CP1" /\ host_ok (Name (c_host c)).
Proof.
  eexists. split; [vm_compute; reflexivity|]. split; [vm_compute; reflexivity|]. cbn. intuition discriminate.
Qed.
Theorem written_ipv6_refuted : exists s id c, parse_and_validate s id 1 = Ok c /\ parse_and_validate (uri_string c) id 1 <> Ok c.
Proof. exists (txt "ws://[::1]:90/"), (txt "CP1"). eexists. split; [vm_compute; reflexivity|]. vm_compute. discriminate. Qed.
Print Assumptions written_ipv6_refuted.

(** What the validation lets through although it announces to refuse it, and what it throws instead of
    std::invalid_argument. *)
Theorem unknown_profile_refuted : exists s id profile c, ~ known profile /\ parse_and_validate s id profile = Ok c /\ c_secure c = false.
Proof. exists (txt "csms.example"), (txt "CP1"), (-1). eexists. split; [unfold known; lia|]. split; vm_compute; reflexivity. Qed.
Print Assumptions unknown_profile_refuted.
Theorem unknown_profile_with_scheme : forall s h p r id profile, s <> NoScheme -> ~ known profile ->
  forall c, parse_and_validate (address s h p r) id profile <> Ok c.
Proof.
  intros s h p r id profile N K c E. assert (X : contains (txt "://") (address s h p r) = true) by (apply has_marker; exact N).
  assert (Y : address s h p r <> []) by (destruct s; [congruence| | | |]; discriminate).
  destruct id as [|i0 id]; [destruct (address s h p r); [congruence|discriminate E]|].
  rewrite validate_unfold in E by (exact Y || discriminate). cbv zeta in E. rewrite X in E. cbn [negb andb] in E. unfold known in K.
  destruct (parse (address s h p r)) as [u| |]; try discriminate E. destruct (negb (u_valid u)); [discriminate E|].
  replace (profile =? 0) with false in E by lia. replace (profile =? 1) with false in E by lia. replace (profile =? 2) with false in E by lia.
  replace (profile =? 3) with false in E by lia. discriminate E.
Qed.
Print Assumptions unknown_profile_with_scheme.
Theorem port_is_a_number_refuted : exists l c, decimal l 0 = None /\
  parse_and_validate (address Ws (Name (txt "csms.example")) (Some l) None) (txt "CP1") 1 = Ok c /\ c_port c = 80.
Proof. exists (txt "80abc"). eexists. split; [reflexivity|]. split; vm_compute; reflexivity. Qed.
Print Assumptions port_is_a_number_refuted.
Theorem host_is_given_refuted : exists s c, parse_and_validate s (txt "CP1") 1 = Ok c /\ c_host c = [].
Proof. exists (txt "ws:///ocpp"). eexists. split; vm_compute; reflexivity. Qed.
Print Assumptions host_is_given_refuted.
Theorem only_invalid_argument_refuted : exists s id, parse_and_validate s id 1 = OutOfRange.
Proof. exists (txt "ws://csms.example:99999999999999999999/"), (txt "CP1"). vm_compute. reflexivity. Qed.
Print Assumptions only_invalid_argument_refuted.
