(** C35 (authorization decision), C36 (the cache after an attempt that did not reach the CSMS), C37 (local list updates),
    C60 (cleaning up the cache). *)
From Coq Require Import ZArith String Ascii List Bool Lia.
From Verif Require Import StrModel StrProofs AuthModel AuthSpec AuthProofs.
Import ListNotations.
Local Open Scope string_scope.
Local Open Scope Z_scope.

(** ** Values for the examples *)

Definition base_cfg : config :=
  {| auth_enabled := true; local_authorize_offline := true; disable_remote := false; local_pre_authorize := true;
     central_contract_validation := false; contract_validation_offline := true; list_enabled := true; cache_enabled := true;
     cache_lifetime := Some 60; disable_post_authorize := false; offline_tx_unknown := false |}.
Definition offline_world : world :=
  {| online := false; online_at_send := false; now := 100000; verify := Valid; mo_ocsp := []; answer := fun _ => None;
     list_get_ok := true; cache_get_ok := true; cache_delete_ok := true; cache_use_ok := true; cache_insert_ok := true |}.
Definition online_world : world :=
  {| online := true; online_at_send := true; now := 100000; verify := Valid; mo_ocsp := ["h"];
     answer := fun q => if String.eqb (t_id (q_token q)) "GOOD" then Some (respond Accepted) else Some (respond Blocked);
     list_get_ok := true; cache_get_ok := true; cache_delete_ok := true; cache_use_ok := true; cache_insert_ok := true |}.
Definition tok (i : string) : token := {| t_id := i; t_type := "ISO14443" |}.
Definition emaid (i : string) : token := {| t_id := i; t_type := "eMAID" |}.
Definition row (t : token) (i : info) (u : Z) : cache_row :=
  {| c_key := t_type t ++ t_id t; c_info := i; c_used := u; c_expiry := i_expiry i |}.
Definition some_db : db :=
  {| d_cache := [row (tok "C1") (plain_info Accepted) 50000; row (tok "C2") (plain_info Accepted) 30000;
                 row (tok "C3") (plain_info Blocked) 90000; row (emaid "E1") (plain_info Accepted) 99000;
                 row (tok "C4") {| i_status := Accepted; i_expiry := Some 99999; i_rest := 3 |} 99000];
     d_list := [("ISO14443" ++ "L1", plain_info Accepted); ("ISO14443" ++ "L2", plain_info Blocked)];
     d_version := 4; d_entries := Some 2 |}.

Lemma not_exempt_ex (t : token) : auth_enabled base_cfg = true -> iequals (t_type t) "Central" = false ->
  iequals (t_type t) "NoAuthorization" = false -> ~ exempt base_cfg t.
Proof. intros _ A B [H|[H|H]]; [congruence|congruence|discriminate]. Qed.

Example some_db_ok : tables_ok some_db.
Proof.
  split; [|split].
  - cbn. repeat constructor; cbn; intuition discriminate.
  - cbn. repeat constructor; cbn; intuition discriminate.
  - repeat (apply Forall_cons; [reflexivity|]). apply Forall_nil.
Qed.

(** ** C35: the decision *)

Lemma checked_step cfg w t c o d : checked cfg w t c ->
  validate_token cfg w t c o d =
    match validate_list cfg w t c o d with
    | Some (r, q) => (r, q, d)
    | None =>
        let (a, cc) := validate_cache cfg w t d in
        match a with
        | Some r => (r, [], set_cache cc d)
        | None =>
            if negb (online w) && offline_tx_unknown cfg then (respond Accepted, [], set_cache cc d)
            else if disable_remote cfg then (respond StUnknown, [], set_cache cc d)
            else
              let (r, q) := authorize_req w {| q_token := t; q_cert := c; q_ocsp := o |} in
              let cc := if cache_enabled cfg && cache_insert_ok w then cache_insert (now w) (token_key t) (r_info r) cc else cc in
              (r, q, set_cache cc d)
        end
    end.
Proof.
  intros C. pose proof C as [E _]. unfold validate_token.
  destruct (has_type "Central" t || has_type "NoAuthorization" t || negb (auth_enabled cfg)) eqn:X; [exfalso; apply E, exempt_iff, X|].
  rewrite (proj1 (checked_none cfg w t c o E) C). reflexivity.
Qed.

(** Tokens that need no authorization are accepted, and nothing else happens. *)
Theorem exempt_accepted :
  forall cfg w t c o d, exempt cfg t ->
    exists r, validate_token cfg w t c o d = (r, [], d) /\ i_status (r_info r) = Accepted.
Proof.
  intros cfg w t c o d E. apply exempt_iff in E. unfold validate_token. rewrite E. eexists. split; reflexivity.
Qed.
Print Assumptions exempt_accepted.

Example exempt_accepted_ex : exempt base_cfg {| t_id := "x"; t_type := "central" |}.
Proof. left. reflexivity. Qed.

(** Why a token was accepted although no request was sent. *)
Theorem accepted_without_request :
  forall cfg w t c o d r d', tables_ok d -> validate_token cfg w t c o d = (r, [], d') -> i_status (r_info r) = Accepted ->
    exempt cfg t \/
    (checked cfg w t c /\
     ((exists i, list_hit cfg w t d i /\ i_status i = Accepted /\ r_info r = i) \/
      (no_list_hit cfg w t d /\ exists x, cache_hit cfg w t d x /\ fresh (cache_lifetime cfg) (now w) x /\
         i_status (c_info x) = Accepted /\ r_info r = c_info x) \/
      (no_list_hit cfg w t d /\ online w = false /\ offline_tx_unknown cfg = true))).
Proof.
  intros cfg w t c o d r d' T V A.
  destruct (has_type "Central" t || has_type "NoAuthorization" t || negb (auth_enabled cfg)) eqn:X; [left; apply exempt_iff, X|right].
  assert (NE : ~ exempt cfg t) by (intros E; apply exempt_iff in E; congruence).
  assert (RQ : forall q r', authorize_req w q = (r', []) -> i_status (r_info r') <> Accepted).
  { intros q r' H. unfold authorize_req in H. destruct (online_at_send w); cbn [negb] in H; [destruct (answer w q); discriminate|].
    injection H as <-. discriminate. }
  assert (CH : checked cfg w t c).
  { apply (checked_none cfg w t c o NE). destruct (if has_type "eMAID" t then validate_emaid cfg w t c o else None) as [[r0 q0]|] eqn:Y; [|reflexivity].
    unfold validate_token in V. rewrite X, Y in V. injection V as -> -> ->. destruct (has_type "eMAID" t); [|discriminate].
    exfalso. unfold validate_emaid in Y.
    repeat (match type of Y with
            | context [match ?x with _ => _ end] => destruct x
            end; try discriminate);
      injection Y as Y; try (eapply RQ; eassumption); try (injection Y as Y; subst; discriminate); try (subst; discriminate). }
  split; [exact CH|]. rewrite (checked_step _ _ _ _ _ _ CH) in V.
  destruct (list_hit_dec cfg w t d) as [[i H]|NL].
  - left. exists i. split; [exact H|]. rewrite (list_hit_get _ _ _ c o _ _ T H) in V.
    destruct (is_accepted (i_status i)) eqn:AI.
    + injection V as <- <-. apply accepted_true in AI. auto.
    + destruct (disable_remote cfg); [injection V as <- <-; discriminate|].
      destruct (online w); [|injection V as <- <-; discriminate].
      destruct (authorize_req w _) as [r0 q0] eqn:RR. injection V as <- -> <-. exfalso. exact (RQ _ _ RR A).
  - right. rewrite (proj1 (no_list_hit_iff _ _ _ c o _ T) NL) in V.
    destruct (validate_cache cfg w t d) as [a cc] eqn:VC. destruct a as [r0|].
    + left. split; [exact NL|]. injection V as <- <-.
      destruct (cache_hit_dec cfg w t d) as [[x H]|NH].
      * exists x. split; [exact H|]. rewrite (cache_hit_get _ _ _ _ _ T H) in VC.
        destruct (cache_row_expired cfg w x) eqn:EX; [discriminate|]. apply fresh_iff in EX. split; [exact EX|].
        destruct (is_accepted (i_status (c_info x))) eqn:AI.
        -- apply accepted_true in AI. destruct (cache_use_ok w); [|discriminate]. injection VC as <- _. auto.
        -- destruct (disable_post_authorize cfg); [|discriminate]. injection VC as <- _. cbn in A. rewrite A in AI. discriminate.
      * rewrite (no_cache_hit _ _ _ _ NH) in VC. discriminate.
    + destruct (negb (online w) && offline_tx_unknown cfg) eqn:OF.
      { right. apply andb_true_iff in OF. rewrite negb_true_iff in OF. tauto. }
      destruct (disable_remote cfg); [injection V as <- <-; discriminate|].
      destruct (authorize_req w _) as [r1 q1] eqn:RR. injection V as <- -> <-. exfalso. exact (RQ _ _ RR A).
Qed.
Print Assumptions accepted_without_request.

(** Every request is for this token, is sent at most once and only while connected; the response is then the answer of
    the CSMS, or Unknown if there is none. With DisableRemoteAuthorization only contracts cause requests. *)
Theorem requests_are_for_the_token :
  forall cfg w t c o d r qs d', validate_token cfg w t c o d = (r, qs, d') -> qs <> [] ->
    exists q, qs = [q] /\ q_token q = t /\ online_at_send w = true /\
      (r = unknown /\ answer w q = None \/ answer w q = Some r) /\
      (disable_remote cfg = true -> contract t).
Proof.
  intros cfg w t c o d r qs d' V N.
  assert (K : forall q r' s, authorize_req w q = (r', s) -> s <> [] ->
     s = [q] /\ online_at_send w = true /\ (r' = unknown /\ answer w q = None \/ answer w q = Some r')).
  { intros q r' s H NS. unfold authorize_req in H. destruct (online_at_send w); cbn [negb] in H; [|injection H as <- <-; congruence].
    destruct (answer w q) eqn:AW; injection H as <- <-; auto. }
  unfold validate_token in V. destruct (has_type "Central" t || has_type "NoAuthorization" t || negb (auth_enabled cfg)); [injection V as <- <- <-; congruence|].
  destruct (has_type "eMAID" t) eqn:EM.
  - destruct (validate_emaid cfg w t c o) as [[r0 q0]|] eqn:Y.
    + injection V as -> -> ->. unfold validate_emaid in Y.
      repeat (match type of Y with
            | context [match ?x with _ => _ end] => destruct x
            end; try discriminate);
      injection Y as Y; try (injection Y as Y; subst; congruence); try congruence; apply K in Y; auto; destruct Y as (-> & A & B);
      eexists; (split; [reflexivity|]); (split; [reflexivity|]); (split; [exact A|]); (split; [exact B|]); intros _; exact EM.
    + destruct (validate_list cfg w t c o d) as [[r0 q0]|] eqn:L.
      * injection V as -> -> ->. unfold validate_list in L.
        destruct (list_enabled cfg && can_locally_check cfg w); [|discriminate].
        destruct (if list_get_ok w then _ else None) as [i|]; [|discriminate]. injection L as L.
        destruct (is_accepted (i_status i)); [injection L as <- <-; congruence|].
        destruct (disable_remote cfg) eqn:DR; [injection L as <- <-; congruence|].
        destruct (online w); [|injection L as <- <-; congruence]. apply K in L; auto. destruct L as (-> & A & B).
        eexists. split; [reflexivity|]. split; [reflexivity|]. split; [exact A|]. split; [exact B|]. congruence.
      * destruct (validate_cache cfg w t d) as [[r0|] cc]; [injection V as <- <- <-; congruence|].
        destruct (negb (online w) && offline_tx_unknown cfg); [injection V as <- <- <-; congruence|].
        destruct (disable_remote cfg) eqn:DR; [injection V as <- <- <-; congruence|].
        destruct (authorize_req w _) as [r1 q1] eqn:RR. injection V as <- <- <-. apply K in RR; auto. destruct RR as (-> & A & B).
        eexists. split; [reflexivity|]. split; [reflexivity|]. split; [exact A|]. split; [exact B|]. congruence.
  - destruct (validate_list cfg w t c o d) as [[r0 q0]|] eqn:L.
      * injection V as -> -> ->. unfold validate_list in L.
        destruct (list_enabled cfg && can_locally_check cfg w); [|discriminate].
        destruct (if list_get_ok w then _ else None) as [i|]; [|discriminate]. injection L as L.
        destruct (is_accepted (i_status i)); [injection L as <- <-; congruence|].
        destruct (disable_remote cfg) eqn:DR; [injection L as <- <-; congruence|].
        destruct (online w); [|injection L as <- <-; congruence]. apply K in L; auto. destruct L as (-> & A & B).
        eexists. split; [reflexivity|]. split; [reflexivity|]. split; [exact A|]. split; [exact B|]. congruence.
      * destruct (validate_cache cfg w t d) as [[r0|] cc]; [injection V as <- <- <-; congruence|].
        destruct (negb (online w) && offline_tx_unknown cfg); [injection V as <- <- <-; congruence|].
        destruct (disable_remote cfg) eqn:DR; [injection V as <- <- <-; congruence|].
        destruct (authorize_req w _) as [r1 q1] eqn:RR. injection V as <- <- <-. apply K in RR; auto. destruct RR as (-> & A & B).
        eexists. split; [reflexivity|]. split; [reflexivity|]. split; [exact A|]. split; [exact B|]. congruence.
Qed.
Print Assumptions requests_are_for_the_token.

Example requests_are_for_the_token_ex :
  exists d', validate_token base_cfg online_world (tok "GOOD") None None some_db =
    (respond Accepted, [{| q_token := tok "GOOD"; q_cert := None; q_ocsp := None |}], d').
Proof. eexists. vm_compute. reflexivity. Qed.

(** An entry of the local list decides before the cache, and nothing is stored: an accepted entry accepts without a
    request; any other entry leads to a request if connected and permitted and to Unknown otherwise. *)
Theorem list_entry_decides :
  forall cfg w t c o d i r qs d', tables_ok d -> checked cfg w t c -> list_hit cfg w t d i ->
    validate_token cfg w t c o d = (r, qs, d') ->
    d' = d /\
    if is_accepted (i_status i) then r_info r = i /\ qs = []
    else if online w && negb (disable_remote cfg) then csms_says w {| q_token := t; q_cert := c; q_ocsp := o |} r qs
    else r = unknown /\ qs = [].
Proof.
  intros cfg w t c o d i r qs d' T C H V. rewrite (checked_step _ _ _ _ _ _ C), (list_hit_get _ _ _ c o _ _ T H) in V.
  destruct (is_accepted (i_status i)); [injection V as <- <- <-; auto|].
  destruct (disable_remote cfg); [injection V as <- <- <-; rewrite andb_false_r; auto|].
  destruct (online w); cbn [andb negb]; [|injection V as <- <- <-; auto].
  destruct (authorize_req w _) as [r0 q0] eqn:RR. injection V as <- <- <-. split; [reflexivity|]. apply authorize_says. exact RR.
Qed.
Print Assumptions list_entry_decides.

Example list_entry_decides_ex :
  checked base_cfg online_world (tok "L2") None /\ list_hit base_cfg online_world (tok "L2") some_db (plain_info Blocked) /\
  validate_token base_cfg online_world (tok "L2") None None some_db =
    (respond Blocked, [{| q_token := tok "L2"; q_cert := None; q_ocsp := None |}], some_db) /\
  validate_token base_cfg offline_world (tok "L1") None None some_db = ({| r_info := plain_info Accepted; r_cert := None |}, [], some_db).
Proof.
  split; [split; [apply not_exempt_ex; reflexivity|discriminate]|]. split; [|split; vm_compute; reflexivity].
  repeat split; try reflexivity. right. left. reflexivity.
Qed.

(** Without an entry in the list, a fresh row of the cache decides: an accepted one accepts without a request and counts
    as used now; any other is final if DisablePostAuthorize is set. *)
Theorem cache_row_decides :
  forall cfg w t c o d x r qs d', tables_ok d -> checked cfg w t c -> no_list_hit cfg w t d -> cache_hit cfg w t d x ->
    fresh (cache_lifetime cfg) (now w) x -> validate_token cfg w t c o d = (r, qs, d') ->
    (i_status (c_info x) = Accepted -> cache_use_ok w = true ->
       r_info r = c_info x /\ qs = [] /\
       forall y, cached d' t y <-> y = {| c_key := c_key x; c_info := c_info x; c_used := now w; c_expiry := c_expiry x |}) /\
    (i_status (c_info x) <> Accepted -> disable_post_authorize cfg = true -> r_info r = c_info x /\ qs = [] /\ d' = d).
Proof.
  intros cfg w t c o d x r qs d' T C NL H F V.
  rewrite (checked_step _ _ _ _ _ _ C), (proj1 (no_list_hit_iff _ _ _ c o _ T) NL), (cache_hit_get _ _ _ _ _ T H) in V.
  apply fresh_iff in F. rewrite F in V. split.
  - intros A U. apply accepted_true in A. rewrite A, U in V. injection V as <- <- <-. split; [reflexivity|]. split; [reflexivity|].
    intros y. unfold cached. cbn [set_cache d_cache]. destruct H as (_ & _ & _ & I & K). destruct T as (N & _ & _). unfold token_key. split.
    + intros [Y YK]. apply use_in in Y. destruct Y as [[Y1 Y2]|(y0 & Y1 & Y2 & ->)]; [contradiction|].
      pose proof (find_unique _ _ _ N I K) as E1. pose proof (find_unique _ _ _ N Y1 Y2) as E2. rewrite E1 in E2. injection E2 as <-. reflexivity.
    + intros ->. split; [|exact K]. apply use_in. right. exists x. auto.
  - intros A P. destruct (is_accepted (i_status (c_info x))) eqn:AI; [apply accepted_true in AI; contradiction|].
    rewrite P in V. injection V as <- <- <-. destruct d; auto.
Qed.
Print Assumptions cache_row_decides.

Example cache_row_decides_ex :
  let x := row (tok "C1") (plain_info Accepted) 50000 in
  checked base_cfg offline_world (tok "C1") None /\ no_list_hit base_cfg offline_world (tok "C1") some_db /\
  cache_hit base_cfg offline_world (tok "C1") some_db x /\ fresh (cache_lifetime base_cfg) (now offline_world) x /\
  exists d', validate_token base_cfg offline_world (tok "C1") None None some_db = ({| r_info := plain_info Accepted; r_cert := None |}, [], d') /\
             d_cache d' <> d_cache some_db.
Proof.
  cbv zeta. split; [split; [apply not_exempt_ex; reflexivity|discriminate]|].
  split; [apply (no_list_hit_iff _ _ _ None None _ some_db_ok); vm_compute; reflexivity|].
  split; [repeat split; try reflexivity; left; reflexivity|].
  split; [apply fresh_iff; vm_compute; reflexivity|]. eexists. split; [vm_compute; reflexivity|]. vm_compute. discriminate.
Qed.

(** Neither list nor cache have an answer: no entry in the list; the row of the cache, if any, has expired, or is not
    accepted and may be asked about again, or could not be marked as used. *)
Definition undecided (cfg : config) (w : world) (t : token) (d : db) : Prop :=
  no_list_hit cfg w t d /\
  forall x, cache_hit cfg w t d x ->
    ~ fresh (cache_lifetime cfg) (now w) x \/
    (i_status (c_info x) <> Accepted /\ disable_post_authorize cfg = false) \/
    (i_status (c_info x) = Accepted /\ cache_use_ok w = false).

Lemma undecided_cache cfg w t d : tables_ok d -> undecided cfg w t d ->
  exists cc, validate_cache cfg w t d = (None, cc) /\
    (cc = d_cache d \/ (cc = cache_delete (token_key t) (d_cache d) /\ exists x, cache_hit cfg w t d x /\ ~ fresh (cache_lifetime cfg) (now w) x)) /\
    (forall x, cache_hit cfg w t d x -> ~ fresh (cache_lifetime cfg) (now w) x -> cache_delete_ok w = true -> cc = cache_delete (token_key t) (d_cache d)).
Proof.
  intros T [_ U]. destruct (cache_hit_dec cfg w t d) as [[x H]|N].
  - specialize (U x H). rewrite (cache_hit_get _ _ _ _ _ T H).
    destruct (cache_row_expired cfg w x) eqn:E.
    + assert (NF : ~ fresh (cache_lifetime cfg) (now w) x) by (rewrite <- fresh_iff; congruence).
      eexists. split; [reflexivity|]. split.
      * destruct (cache_delete_ok w); [right; split; [reflexivity|eauto]|left; reflexivity].
      * intros y _ _ ->. reflexivity.
    + apply fresh_iff in E. exists (d_cache d).
      assert (forall y, cache_hit cfg w t d y -> ~ fresh (cache_lifetime cfg) (now w) y -> False).
      { intros y (_ & _ & _ & Y1 & Y2) NF. destruct H as (_ & _ & _ & I & K), T as (TN & _ & _).
        pose proof (find_unique _ _ _ TN I K) as E1. pose proof (find_unique _ _ _ TN Y1 Y2) as E2. rewrite E1 in E2. injection E2 as <-. contradiction. }
      split; [|split; [left; reflexivity|intros y Y1 Y2; exfalso; eauto]].
      destruct U as [U|[[U1 U2]|[U1 U2]]]; [contradiction| |].
      * destruct (is_accepted (i_status (c_info x))) eqn:A; [apply accepted_true in A; contradiction|]. rewrite U2. reflexivity.
      * apply accepted_true in U1. rewrite U1, U2. reflexivity.
  - rewrite (no_cache_hit _ _ _ _ N). exists (d_cache d). split; [reflexivity|]. split; [auto|]. intros x X. exfalso. exact (N x X).
Qed.

(** Then: offline with OfflineTxForUnknownIdEnabled the token is accepted, with DisableRemoteAuthorization it is unknown,
    otherwise the CSMS decides and its answer is what the cache then says about the token. *)
Theorem undecided_tokens :
  forall cfg w t c o d r qs d', tables_ok d -> checked cfg w t c -> undecided cfg w t d ->
    validate_token cfg w t c o d = (r, qs, d') ->
    (online w = false -> offline_tx_unknown cfg = true -> r = respond Accepted /\ qs = []) /\
    (online w = true \/ offline_tx_unknown cfg = false -> disable_remote cfg = true -> r = unknown /\ qs = []) /\
    (online w = true \/ offline_tx_unknown cfg = false -> disable_remote cfg = false ->
       csms_says w {| q_token := t; q_cert := c; q_ocsp := o |} r qs /\
       (cache_enabled cfg = true -> cache_insert_ok w = true -> forall y, cached d' t y <->
          y = {| c_key := t_type t ++ t_id t; c_info := r_info r; c_used := now w; c_expiry := i_expiry (r_info r) |})).
Proof.
  intros cfg w t c o d r qs d' T C U V. destruct (undecided_cache _ _ _ _ T U) as (cc & VC & _).
  rewrite (checked_step _ _ _ _ _ _ C), (proj1 (no_list_hit_iff _ _ _ c o _ T) (proj1 U)), VC in V.
  split; [|split].
  - intros A B. rewrite A, B in V. cbn in V. injection V as <- <- <-. auto.
  - intros A B. assert (E : negb (online w) && offline_tx_unknown cfg = false) by (destruct A as [-> | ->]; [reflexivity|apply andb_false_r]).
    rewrite E, B in V. injection V as <- <- <-. auto.
  - intros A B. assert (E : negb (online w) && offline_tx_unknown cfg = false) by (destruct A as [-> | ->]; [reflexivity|apply andb_false_r]).
    rewrite E, B in V. destruct (authorize_req w _) as [r0 q0] eqn:RR. injection V as <- <- <-. split; [apply authorize_says; exact RR|].
    intros CE CI y. rewrite CE, CI. cbn [andb]. unfold cached. cbn [set_cache d_cache]. rewrite insert_in. unfold token_key. split.
    + intros [[[_ H]| ->] K]; [contradiction|reflexivity].
    + intros ->. split; [right; reflexivity|reflexivity].
Qed.
Print Assumptions undecided_tokens.

Example undecided_tokens_ex :
  undecided base_cfg online_world (tok "C2") some_db /\ undecided base_cfg online_world (tok "C3") some_db /\
  undecided base_cfg online_world (tok "GOOD") some_db /\
  exists q d', validate_token base_cfg online_world (tok "C2") None None some_db = (respond Blocked, [q], d').
Proof.
  assert (G : forall t, validate_list base_cfg online_world t None None some_db = None ->
             (forall x, cache_get (token_key t) (d_cache some_db) = Some x ->
                cache_row_expired base_cfg online_world x = true \/ (is_accepted (i_status (c_info x)) = false)) -> undecided base_cfg online_world t some_db).
  { intros t A B. split; [apply (no_list_hit_iff _ _ _ None None _ some_db_ok), A|]. intros x (_ & _ & _ & I & K).
    pose proof (find_unique _ _ _ (proj1 some_db_ok) I K) as E. destruct (B x E) as [X|X].
    - left. rewrite <- fresh_iff. congruence.
    - right. left. split; [|reflexivity]. intros Y. apply accepted_true in Y. congruence. }
  split; [|split; [|split]].
  - apply G; [vm_compute; reflexivity|]. intros x H. vm_compute in H. injection H as <-. left. vm_compute. reflexivity.
  - apply G; [vm_compute; reflexivity|]. intros x H. vm_compute in H. injection H as <-. right. vm_compute. reflexivity.
  - apply G; [vm_compute; reflexivity|]. intros x H. vm_compute in H. discriminate.
  - do 2 eexists. vm_compute. reflexivity.
Qed.

(** A row that has expired is removed when it is met; what the cache then holds for the token is at most the answer just
    obtained. *)
Theorem expired_row_removed :
  forall cfg w t c o d x r qs d', tables_ok d -> checked cfg w t c -> no_list_hit cfg w t d -> cache_hit cfg w t d x ->
    ~ fresh (cache_lifetime cfg) (now w) x -> cache_delete_ok w = true -> validate_token cfg w t c o d = (r, qs, d') ->
    forall y, cached d' t y -> c_info y = r_info r /\ c_used y = now w /\
      (online w = true \/ offline_tx_unknown cfg = false) /\ disable_remote cfg = false.
Proof.
  intros cfg w t c o d x r qs d' T C NL H NF OK V y Y.
  assert (U : undecided cfg w t d).
  { split; [exact NL|]. intros x' H'. left. destruct H as (_ & _ & _ & I & K), H' as (_ & _ & _ & I' & K'), T as (TN & _ & _).
    pose proof (find_unique _ _ _ TN I K) as E1. pose proof (find_unique _ _ _ TN I' K') as E2. rewrite E1 in E2. injection E2 as <-. exact NF. }
  destruct (undecided_cache _ _ _ _ T U) as (cc & VC & _ & E). specialize (E x H NF OK). subst cc.
  rewrite (checked_step _ _ _ _ _ _ C), (proj1 (no_list_hit_iff _ _ _ c o _ T) NL), VC in V.
  destruct Y as [Y YK]. fold (token_key t) in YK.
  destruct (negb (online w) && offline_tx_unknown cfg) eqn:OF.
  { injection V as <- <- <-. apply delete_in in Y. tauto. }
  destruct (disable_remote cfg) eqn:DR. { injection V as <- <- <-. apply delete_in in Y. tauto. }
  destruct (authorize_req w _) as [r0 q0]. injection V as <- <- <-. cbn [set_cache d_cache] in Y.
  assert (O : online w = true \/ offline_tx_unknown cfg = false).
  { destruct (online w); [auto|]. right. exact OF. }
  destruct (cache_enabled cfg && cache_insert_ok w).
  - apply insert_in in Y. destruct Y as [[_ Y]| ->]; [contradiction|]. auto.
  - apply delete_in in Y. tauto.
Qed.
Print Assumptions expired_row_removed.

Example expired_row_removed_ex :
  let x := row (tok "C4") {| i_status := Accepted; i_expiry := Some 99999; i_rest := 3 |} 99000 in
  cache_hit base_cfg offline_world (tok "C4") some_db x /\ ~ fresh (cache_lifetime base_cfg) (now offline_world) x /\
  exists d', validate_token base_cfg offline_world (tok "C4") None None some_db = (respond StUnknown, [], d').
Proof.
  cbv zeta. split; [repeat split; try reflexivity; cbn; tauto|]. split; [rewrite <- fresh_iff; vm_compute; discriminate|].
  eexists. vm_compute. reflexivity.
Qed.

(** Everything else in the database is left alone. *)
Theorem other_rows_untouched :
  forall cfg w t c o d r qs d', validate_token cfg w t c o d = (r, qs, d') ->
    d_list d' = d_list d /\ d_version d' = d_version d /\ d_entries d' = d_entries d /\
    forall x, c_key x <> t_type t ++ t_id t -> (In x (d_cache d') <-> In x (d_cache d)).
Proof.
  intros cfg w t c o d r qs d' V. unfold validate_token in V.
  destruct (has_type "Central" t || has_type "NoAuthorization" t || negb (auth_enabled cfg)); [injection V as <- <- <-; tauto|].
  assert (K : match validate_list cfg w t c o d with
    | Some (r, q) => (r, q, d)
    | None =>
        let (a, cc) := validate_cache cfg w t d in
        match a with
        | Some r => (r, [], set_cache cc d)
        | None =>
            if negb (online w) && offline_tx_unknown cfg then (respond Accepted, [], set_cache cc d)
            else if disable_remote cfg then (respond StUnknown, [], set_cache cc d)
            else
              let (r, q) := authorize_req w {| q_token := t; q_cert := c; q_ocsp := o |} in
              let cc := if cache_enabled cfg && cache_insert_ok w then cache_insert (now w) (token_key t) (r_info r) cc else cc in
              (r, q, set_cache cc d)
        end
    end = (r, qs, d') -> d_list d' = d_list d /\ d_version d' = d_version d /\ d_entries d' = d_entries d /\
    forall x, c_key x <> t_type t ++ t_id t -> (In x (d_cache d') <-> In x (d_cache d))).
  { clear V. intros V. destruct (validate_list cfg w t c o d) as [[r0 q0]|]; [injection V as <- <- <-; tauto|].
    destruct (validate_cache cfg w t d) as [a cc] eqn:VC.
    assert (CC : forall x, c_key x <> t_type t ++ t_id t -> (In x cc <-> In x (d_cache d))).
    { intros x X. unfold validate_cache in VC. fold (token_key t) in X.
      repeat (match type of VC with context [if ?b then _ else _] => destruct b | context [match ?m with Some _ => _ | None => _ end] => destruct m end);
        injection VC as _ <-; rewrite ?delete_in, ?use_in; try tauto.
      all: split; [intros [H|(y & _ & H1 & ->)]; [tauto|cbn in X; congruence]|tauto]. }
    destruct a; [injection V as <- <- <-; cbn; tauto|].
    destruct (negb (online w) && offline_tx_unknown cfg); [injection V as <- <- <-; cbn; tauto|].
    destruct (disable_remote cfg); [injection V as <- <- <-; cbn; tauto|].
    destruct (authorize_req w _) as [r0 q0]. injection V as <- <- <-. cbn [set_cache d_cache d_list d_version d_entries].
    split; [reflexivity|]. split; [reflexivity|]. split; [reflexivity|].
    intros x X. destruct (cache_enabled cfg && cache_insert_ok w); [|auto]. rewrite insert_in, CC by exact X. split; [|tauto].
    intros [H|H]; [tauto|]. subst x. cbn in X. unfold token_key in X. congruence. }
  destruct (if has_type "eMAID" t then validate_emaid cfg w t c o else None) as [[r0 q0]|]; [injection V as <- <- <-; tauto|auto].
Qed.
Print Assumptions other_rows_untouched.

(** ** Contracts *)

(** While connected a contract is decided by the CSMS alone: the request carries the given OCSP data, or the data derived
    from the certificate, or, only if CentralContractValidationAllowed, the certificate; otherwise it is invalid. *)
Theorem contract_online :
  forall cfg w t c o d r qs d', ~ exempt cfg t -> contract t -> online w = true ->
    validate_token cfg w t c o d = (r, qs, d') ->
    d' = d /\
    ((i_status (r_info r) = StInvalid /\ qs = [] /\ o = None /\ (c = None \/ central_contract_validation cfg = false)) \/
     exists q, csms_says w q r qs /\ q_token q = t /\
       ((exists x, o = Some x /\ q_ocsp q = o /\ q_cert q = None) \/
        (o = None /\ c <> None /\ q_ocsp q = Some (mo_ocsp w) /\ mo_ocsp w <> [] /\ verify w <> IssuerNotFound /\ q_cert q = None) \/
        (o = None /\ c <> None /\ q_cert q = c /\ q_ocsp q = None /\ central_contract_validation cfg = true /\
         (verify w = IssuerNotFound \/ mo_ocsp w = [])))).
Proof.
  intros cfg w t c o d r qs d' E CT ON V. unfold validate_token in V.
  destruct (has_type "Central" t || has_type "NoAuthorization" t || negb (auth_enabled cfg)) eqn:X; [exfalso; apply E, exempt_iff, X|].
  unfold contract in CT. unfold has_type at 1 in V. rewrite CT in V. unfold validate_emaid in V. rewrite ON in V.
  assert (K : forall q p, (let (r0, q0) := authorize_req w q in (r0, q0, d)) = (r, qs, d') -> (d' = d /\ csms_says w q r qs -> p) -> p).
  { intros q p H HP. destruct (authorize_req w q) as [r0 q0] eqn:RR. injection H as <- <- <-. apply HP. split; [reflexivity|]. apply authorize_says, RR. }
  destruct o as [oc|].
  { eapply K; [exact V|]. intros [A B]. split; [exact A|]. right. eexists. split; [exact B|]. split; [reflexivity|]. left. eexists. auto. }
  destruct c as [ce|]; [|injection V as <- <- <-; split; [reflexivity|]; left; repeat split; auto].
  destruct (verify w) eqn:VV.
  4: { destruct (central_contract_validation cfg).
       - eapply K; [exact V|]. intros [A B]. split; [exact A|]. right. eexists. split; [exact B|]. split; [reflexivity|]. right. right.
         repeat split; auto; discriminate.
       - injection V as <- <- <-. split; [reflexivity|]. left. repeat split; auto. }
  all: destruct (mo_ocsp w) as [|m ms] eqn:MO;
    [destruct (central_contract_validation cfg);
     [eapply K; [exact V|]; intros [A B]; split; [exact A|]; right; eexists; split; [exact B|]; split; [reflexivity|]; right; right;
      repeat split; auto; discriminate
     |injection V as <- <- <-; split; [reflexivity|]; left; repeat split; auto]
    |eapply K; [exact V|]; intros [A B]; split; [exact A|]; right; eexists; split; [exact B|]; split; [reflexivity|]; right; left;
     repeat split; auto; discriminate].
Qed.
Print Assumptions contract_online.

Example contract_online_ex :
  ~ exempt base_cfg (emaid "E1") /\ contract (emaid "E1") /\
  validate_token base_cfg online_world (emaid "E1") (Some "cert") None some_db =
    (respond Blocked, [{| q_token := emaid "E1"; q_cert := None; q_ocsp := Some ["h"] |}], some_db).
Proof. split; [apply not_exempt_ex; reflexivity|]. split; [reflexivity|]. vm_compute. reflexivity. Qed.

(** Offline a contract is never accepted without a certificate, without ContractValidationOffline, or with a certificate
    that the station cannot validate; no request is sent unless the connection came up meanwhile. *)
Theorem contract_offline :
  forall cfg w t c o d r qs d', ~ exempt cfg t -> contract t -> online w = false ->
    validate_token cfg w t c o d = (r, qs, d') ->
    (c = None -> i_status (r_info r) = StInvalid) /\
    (c <> None -> contract_validation_offline cfg = false -> i_status (r_info r) = NotAtThisTime) /\
    (c <> None -> contract_validation_offline cfg = true ->
       match verify w with
       | Valid => local_authorize_offline cfg = false -> i_status (r_info r) = StUnknown
       | VExpired => i_status (r_info r) = StExpired /\ r_cert r = Some CertificateExpired
       | _ => i_status (r_info r) = StUnknown
       end) /\
    (~ contract_cleared cfg w c -> qs = [] /\ d' = d).
Proof.
  intros cfg w t c o d r qs d' E CT OF V.
  assert (Z : ~ contract_cleared cfg w c -> exists r0 q0, validate_emaid cfg w t c o = Some (r0, q0) /\ (r, qs, d') = (r0, q0, d)).
  { intros NC. destruct (validate_emaid cfg w t c o) as [[r0 q0]|] eqn:Y; [|exfalso; apply NC, (emaid_none cfg w t c o), Y].
    exists r0, q0. split; [reflexivity|]. unfold validate_token in V.
    destruct (has_type "Central" t || has_type "NoAuthorization" t || negb (auth_enabled cfg)) eqn:X; [exfalso; apply E, exempt_iff, X|].
    unfold contract in CT. unfold has_type at 1 in V. rewrite CT, Y in V. congruence. }
  split; [|split; [|split]].
  - intros ->. destruct Z as (r0 & q0 & Y & H); [intros (_ & H & _); congruence|]. injection H as -> -> ->.
    unfold validate_emaid in Y. rewrite OF in Y. destruct o; injection Y as <- <-; reflexivity.
  - intros NC A. destruct Z as (r0 & q0 & Y & H); [intros (_ & _ & H & _); congruence|]. injection H as -> -> ->.
    unfold validate_emaid in Y. rewrite OF, A in Y. destruct c; [|congruence]. destruct o; injection Y as <- <-; reflexivity.
  - intros NC A. destruct (verify w) eqn:VV; [intros LA|..];
      (destruct Z as (r0 & q0 & Y & H); [intros (_ & _ & _ & H1 & H2); congruence|]; injection H as -> -> ->;
       unfold validate_emaid in Y; rewrite OF, A, VV in Y; destruct c; [|congruence]; rewrite ?LA in Y; destruct o; injection Y as <- <-; try split; reflexivity).
  - intros NC. destruct (Z NC) as (r0 & q0 & Y & H). injection H as -> -> ->. split; [|reflexivity].
    unfold validate_emaid in Y. rewrite OF in Y.
    repeat (match type of Y with context [match ?x with _ => _ end] => destruct x end; try discriminate); injection Y as <- <-; reflexivity.
Qed.
Print Assumptions contract_offline.

Example contract_offline_ex :
  contract_cleared base_cfg offline_world (Some "cert") /\
  exists d', validate_token base_cfg offline_world (emaid "E1") (Some "cert") None some_db = ({| r_info := plain_info Accepted; r_cert := None |}, [], d').
Proof. split; [repeat split; discriminate|]. eexists. vm_compute. reflexivity. Qed.

(** ** The tables stay well-formed, and tokens of standard types have rows of their own *)

Theorem tables_stay_ok :
  forall d, tables_ok d ->
    (forall cfg w t c o r qs d', validate_token cfg w t c o d = (r, qs, d') -> tables_ok d') /\
    (forall cfg n ok e t i, tables_ok (transaction_event_response cfg n ok e t i d)) /\
    (forall cfg ok, tables_ok (snd (clear_cache_req cfg ok d))) /\
    (forall ok t, tables_ok (clear_customer ok t d)) /\
    (forall e w q, tables_ok (snd (send_local_list e w q d))) /\
    (forall n l size m, tables_ok (set_cache (cache_cleanup n l size m (d_cache d)) d)).
Proof.
  intros d T. pose proof T as (TC & TL & TE).
  assert (FE : forall n k i c, Forall (fun r => c_expiry r = i_expiry (c_info r)) c -> Forall (fun r => c_expiry r = i_expiry (c_info r)) (cache_insert n k i c)).
  { intros n k i c. rewrite !Forall_forall. intros H x X. apply insert_in in X. destruct X as [[X _]| ->]; auto. }
  assert (FF : forall p c, Forall (fun r => c_expiry r = i_expiry (c_info r)) c -> Forall (fun r => c_expiry r = i_expiry (c_info r)) (filter p c)).
  { intros p c. rewrite !Forall_forall. intros H x X. apply filter_In in X. destruct X; auto. }
  assert (SC : forall c, NoDup (map c_key c) -> Forall (fun r => c_expiry r = i_expiry (c_info r)) c -> tables_ok (set_cache c d)).
  { intros c A B. split; [exact A|]. split; [exact TL|exact B]. }
  split; [|split; [|split; [|split; [|split]]]].
  - intros cfg w t c o r qs d' V. unfold validate_token in V.
    repeat match type of V with
    | (if ?b then _ else _) = _ => destruct b; [injection V as <- <- <-; exact T|]
    | match (if ?b then _ else None) with _ => _ end = _ => destruct (if b then validate_emaid cfg w t c o else None) as [[? ?]|]; [injection V as <- <- <-; exact T|]
    | match validate_list cfg w t c o d with _ => _ end = _ => destruct (validate_list cfg w t c o d) as [[? ?]|]; [injection V as <- <- <-; exact T|]
    end.
    assert (CC : NoDup (map c_key (snd (validate_cache cfg w t d))) /\ Forall (fun r => c_expiry r = i_expiry (c_info r)) (snd (validate_cache cfg w t d))).
    { unfold validate_cache.
      repeat (match goal with |- context [if ?b then _ else _] => destruct b | |- context [match ?m with Some _ => _ | None => _ end] => destruct m end);
        cbn [snd]; rewrite ?use_keys; auto.
      all: try solve [split; [apply nodup_filter; auto|apply FF; auto]].
      all: split; auto; rewrite !Forall_forall in *; intros x X; apply use_in in X; destruct X as [[X _]|(y & Y & _ & ->)]; auto; cbn; auto. }
    destruct (validate_cache cfg w t d) as [a cc]. cbn [snd] in CC. destruct CC as [C1 C2].
    destruct a; [injection V as <- <- <-; auto|].
    destruct (negb (online w) && offline_tx_unknown cfg); [injection V as <- <- <-; auto|].
    destruct (disable_remote cfg); [injection V as <- <- <-; auto|].
    destruct (authorize_req w _) as [r0 q0]. injection V as <- <- <-. destruct (cache_enabled cfg && cache_insert_ok w); auto.
    apply SC; [apply insert_keys; auto|apply FE; auto].
  - intros cfg n ok e t i. unfold transaction_event_response. destruct e; auto. destruct i, t; auto. destruct (_ && _); auto.
    apply SC; [apply insert_keys; auto|apply FE; auto].
  - intros cfg ok. unfold clear_cache_req. destruct (cache_enabled cfg), ok; cbn; auto. apply SC; constructor.
  - intros ok t. unfold clear_customer. destruct t; auto. destruct ok; auto. apply SC; [apply nodup_filter; auto|apply FF; auto].
  - intros e w q.
    assert (SL : forall l v n, NoDup (map fst l) -> tables_ok {| d_cache := d_cache d; d_list := l; d_version := v; d_entries := n |})
      by (intros; repeat split; auto).
    assert (AL : tables_ok (snd (apply_list w q d))).
    { unfold apply_list. fold (entries q). destruct (l_version q <=? 0); auto. destruct (l_type q).
      - destruct (entries q) as [|x l].
        + destruct (clear_ok w); cbn; auto. apply SL. constructor.
        + destruct (_ && _); auto. destruct (clear_ok w); cbn [snd]; auto.
          pose proof (apply_entries_keys (entry_ok w) (x :: l) 0 [] (NoDup_nil _)) as K. destruct (apply_entries _ _ _ _). apply SL, K.
      - destruct (version_get_ok w); cbn [negb snd]; auto. destruct (l_version q <=? d_version d); auto.
        destruct (entries q) as [|x l]; auto. destruct (has_duplicate (x :: l)); auto.
        pose proof (apply_entries_keys (entry_ok w) (x :: l) 0 _ TL) as K. destruct (apply_entries _ _ _ _). apply SL, K. }
    unfold send_local_list. destruct e; auto. destruct (apply_list w q d) as [[[| |]|] d1]; auto.
    destruct AL as (A1 & A2 & A3). destruct (version_set_ok w); [|split; auto]. destruct (count_ok w); split; auto.
  - intros n l size m. unfold cache_cleanup, cache_delete_expired. set (c := filter _ (d_cache d)).
    assert (C : NoDup (map c_key c) /\ Forall (fun r => c_expiry r = i_expiry (c_info r)) c) by (split; [apply nodup_filter; auto|apply FF; auto]).
    destruct C as [C1 C2]. clearbody c. destruct m as [m|]; auto. generalize (List.length c) as f. intros f. revert c C1 C2. induction f; intros c C1 C2; cbn; auto.
    destruct (m <? cache_size size c); auto. unfold cache_delete_oldest. destruct (oldest c); auto. apply IHf; [apply nodup_filter; auto|apply FF; auto].
Qed.
Print Assumptions tables_stay_ok.

(** Tokens of the types OCPP names never share a row. *)
Theorem standard_tokens_apart :
  forall a b, standard a -> standard b -> token_key a = token_key b -> a = b.
Proof. exact standard_key_inj. Qed.
Print Assumptions standard_tokens_apart.

Example standard_tokens_apart_ex : standard (tok "A1") /\ standard (emaid "A1") /\ token_key (tok "A1") <> token_key (emaid "A1").
Proof. split; [cbn; tauto|]. split; [cbn; tauto|]. vm_compute. discriminate. Qed.

(** OCPP 2.1 permits further types; then two different tokens can share a row, and one is accepted for the other. *)
Theorem tokens_apart_refuted :
  exists a b d, t_type a <> t_type b /\ t_id a <> t_id b /\ tables_ok d /\ listed d a (plain_info Accepted) /\
    fst (fst (validate_token base_cfg offline_world b None None d)) = {| r_info := plain_info Accepted; r_cert := None |}.
Proof.
  exists {| t_id := "Tag1"; t_type := "Local" |}, {| t_id := "1"; t_type := "LocalTag" |},
    {| d_cache := []; d_list := [("LocalTag1", plain_info Accepted)]; d_version := 1; d_entries := Some 1 |}.
  split; [discriminate|]. split; [discriminate|]. split; [|split].
  - split; [constructor|]. split; [|constructor]. cbn. constructor; [intros []|constructor].
  - left. reflexivity.
  - vm_compute. reflexivity.
Qed.
Print Assumptions tokens_apart_refuted.

(** Tokens differing in case only are equal as CiStrings but have different rows: an entry for "abcd" in the list is not
    found for "ABCD". *)
Theorem lookup_ignores_case_refuted :
  exists a b d, iequals (t_id a) (t_id b) = true /\ t_type a = t_type b /\ tables_ok d /\ listed d a (plain_info Accepted) /\
    fst (fst (validate_token base_cfg offline_world a None None d)) = {| r_info := plain_info Accepted; r_cert := None |} /\
    fst (fst (validate_token base_cfg offline_world b None None d)) = unknown.
Proof.
  exists (tok "abcd"), (tok "ABCD"), {| d_cache := []; d_list := [("ISO14443" ++ "abcd", plain_info Accepted)]; d_version := 1; d_entries := Some 1 |}.
  split; [reflexivity|]. split; [reflexivity|]. split; [|split; [left; reflexivity|split; vm_compute; reflexivity]].
  split; [constructor|]. split; [|constructor]. cbn. constructor; [intros []|constructor].
Qed.
Print Assumptions lookup_ignores_case_refuted.

(** ** What does not hold *)

(** A token the CSMS blocked (as the cache knows) is accepted offline with OfflineTxForUnknownIdEnabled, although it is
    not unknown. *)
Theorem blocked_not_accepted_offline_refuted :
  exists cfg t d x, tables_ok d /\ cache_hit cfg offline_world t d x /\ fresh (cache_lifetime cfg) (now offline_world) x /\
    i_status (c_info x) = Blocked /\
    exists d', validate_token cfg offline_world t None None d = (respond Accepted, [], d').
Proof.
  exists {| auth_enabled := true; local_authorize_offline := true; disable_remote := false; local_pre_authorize := true;
     central_contract_validation := false; contract_validation_offline := true; list_enabled := true; cache_enabled := true;
     cache_lifetime := Some 60; disable_post_authorize := false; offline_tx_unknown := true |}, (tok "C3"), some_db, (row (tok "C3") (plain_info Blocked) 90000).
  split; [exact some_db_ok|]. split; [repeat split; try reflexivity; cbn; tauto|]. split; [apply fresh_iff; vm_compute; reflexivity|].
  split; [reflexivity|]. eexists. vm_compute. reflexivity.
Qed.
Print Assumptions blocked_not_accepted_offline_refuted.

(** DisableRemoteAuthorization does not keep contracts from being sent to the CSMS. *)
Theorem disable_remote_refuted :
  exists cfg t c q d, disable_remote cfg = true /\ ~ exempt cfg t /\
    validate_token cfg online_world t (Some c) None d = (respond Blocked, [q], d).
Proof.
  exists {| auth_enabled := true; local_authorize_offline := true; disable_remote := true; local_pre_authorize := true;
     central_contract_validation := false; contract_validation_offline := true; list_enabled := true; cache_enabled := true;
     cache_lifetime := Some 60; disable_post_authorize := false; offline_tx_unknown := true |}, (emaid "E1"), "cert".
  eexists. exists some_db. split; [reflexivity|]. split; [intros [H|[H|H]]; discriminate|]. vm_compute. reflexivity.
Qed.
Print Assumptions disable_remote_refuted.

(** ** C36: attempts that do not reach the CSMS *)

(** An accepted, fresh row of the cache is overwritten with Unknown by an attempt made while the connection is down (here
    local authorization offline is switched off, so the row was not even read). *)
Theorem offline_attempt_keeps_cache_refuted :
  exists cfg t d d', tables_ok d /\ cached d t (row t (plain_info Accepted) 50000) /\
    validate_token cfg offline_world t None None d = (respond StUnknown, [], d') /\
    cached d' t (row t (plain_info StUnknown) 100000) /\ ~ cached d' t (row t (plain_info Accepted) 50000).
Proof.
  exists {| auth_enabled := true; local_authorize_offline := false; disable_remote := false; local_pre_authorize := true;
     central_contract_validation := false; contract_validation_offline := true; list_enabled := true; cache_enabled := true;
     cache_lifetime := Some 60; disable_post_authorize := false; offline_tx_unknown := false |}, (tok "C1"), some_db.
  eexists. split; [exact some_db_ok|]. split; [split; [left; reflexivity|reflexivity]|]. split; [vm_compute; reflexivity|].
  split; [split; [cbn; tauto|reflexivity]|]. intros [H _]. vm_compute in H. repeat (destruct H as [H|H]; [discriminate|]). exact H.
Qed.
Print Assumptions offline_attempt_keeps_cache_refuted.

(** The same when the request times out: a blocked token becomes unknown, after which it is accepted by nothing it was not
    accepted by before, but an accepted one is lost. *)
Theorem timeout_keeps_cache_refuted :
  exists cfg w t d q d', tables_ok d /\ answer w q = None /\ cached d t (row t (plain_info Accepted) 50000) /\
    validate_token cfg w t None None d = (unknown, [q], d') /\ cached d' t (row t (plain_info StUnknown) 100000) /\
    ~ cached d' t (row t (plain_info Accepted) 50000).
Proof.
  exists {| auth_enabled := true; local_authorize_offline := true; disable_remote := false; local_pre_authorize := false;
     central_contract_validation := false; contract_validation_offline := true; list_enabled := true; cache_enabled := true;
     cache_lifetime := Some 60; disable_post_authorize := false; offline_tx_unknown := false |},
    {| online := true; online_at_send := true; now := 100000; verify := Valid; mo_ocsp := []; answer := fun _ => None;
       list_get_ok := true; cache_get_ok := true; cache_delete_ok := true; cache_use_ok := true; cache_insert_ok := true |}, (tok "C1"), some_db.
  do 2 eexists. split; [exact some_db_ok|]. split; [|split; [split; [left; reflexivity|reflexivity]|split; [vm_compute; reflexivity|]]]; [reflexivity|].
  split; [split; [cbn; tauto|reflexivity]|]. intros [H _]. vm_compute in H. repeat (destruct H as [H|H]; [discriminate|]). exact H.
Qed.
Print Assumptions timeout_keeps_cache_refuted.

(** What does hold (missing: the case in which the CSMS is asked in vain): if no request is made at all, because the token
    was decided locally, remote authorization is disabled, unknown tokens are accepted offline or the cache is off, then
    every row for the token that is still fresh keeps its contents. *)
Theorem local_attempts_keep_cache_partial :
  forall cfg w t c o d r qs d' x, tables_ok d -> validate_token cfg w t c o d = (r, qs, d') ->
    cached d t x -> fresh (cache_lifetime cfg) (now w) x ->
    (exempt cfg t \/ ~ checked cfg w t c \/ (exists i, list_hit cfg w t d i) \/ cache_enabled cfg = false \/ disable_remote cfg = true \/
     (online w = false /\ offline_tx_unknown cfg = true) \/
     (cache_hit cfg w t d x /\ i_status (c_info x) = Accepted /\ cache_use_ok w = true)) ->
    exists y, cached d' t y /\ c_info y = c_info x.
Proof.
  intros cfg w t c o d r qs d' x T V CX F H.
  destruct (has_type "Central" t || has_type "NoAuthorization" t || negb (auth_enabled cfg)) eqn:X.
  { unfold validate_token in V. rewrite X in V. injection V as <- <- <-. eauto. }
  assert (NE : ~ exempt cfg t) by (intros E; apply exempt_iff in E; congruence).
  destruct (if has_type "eMAID" t then validate_emaid cfg w t c o else None) as [[r0 q0]|] eqn:Y.
  { unfold validate_token in V. rewrite X, Y in V. injection V as <- <- <-. eauto. }
  assert (CH : checked cfg w t c) by (apply (checked_none cfg w t c o NE); exact Y).
  rewrite (checked_step _ _ _ _ _ _ CH) in V.
  destruct (list_hit_dec cfg w t d) as [[i LH]|NL].
  { rewrite (list_hit_get _ _ _ c o _ _ T LH) in V.
    destruct (if is_accepted (i_status i) then _ else _) as [r0 q0]. injection V as <- <- <-. eauto. }
  rewrite (proj1 (no_list_hit_iff _ _ _ c o _ T) NL) in V.
  apply fresh_iff in F.
  assert (VC : exists a cc, validate_cache cfg w t d = (a, cc) /\ (exists y, In y cc /\ c_key y = t_type t ++ t_id t /\ c_info y = c_info x) /\
            (cache_hit cfg w t d x -> i_status (c_info x) = Accepted -> cache_use_ok w = true -> a <> None)).
  { destruct CX as [I K]. destruct (cache_hit_dec cfg w t d) as [[x' HH]|NH].
    - assert (x' = x).
      { destruct HH as (_ & _ & _ & I' & K'), T as (TN & _ & _). pose proof (find_unique _ _ _ TN I K) as E1. pose proof (find_unique _ _ _ TN I' K') as E2. congruence. }
      subst x'. rewrite (cache_hit_get _ _ _ _ _ T HH), F. destruct (is_accepted (i_status (c_info x))) eqn:A.
      + destruct (cache_use_ok w).
        * do 2 eexists. split; [reflexivity|]. split; [|discriminate].
          exists {| c_key := c_key x; c_info := c_info x; c_used := now w; c_expiry := c_expiry x |}. split; [apply use_in; right; eauto|auto].
        * do 2 eexists. split; [reflexivity|]. split; [eauto|discriminate].
      + destruct (disable_post_authorize cfg).
        * do 2 eexists. split; [reflexivity|]. split; [eauto|discriminate].
        * do 2 eexists. split; [reflexivity|]. split; [eauto|]. intros _ E. apply accepted_true in E. congruence.
    - rewrite (no_cache_hit _ _ _ _ NH). do 2 eexists. split; [reflexivity|]. split; [eauto|]. intros HH. exfalso. exact (NH _ HH). }
  destruct VC as (a & cc & VC & (y & Y1 & Y2 & Y3) & VH). rewrite VC in V.
  assert (DONE : forall r0 q0, (r0, q0, set_cache cc d) = (r, qs, d') -> exists y, cached d' t y /\ c_info y = c_info x).
  { intros r0 q0 E. injection E as <- <- <-. exists y. unfold cached. auto. }
  destruct a as [r0|]; [eauto|].
  destruct (negb (online w) && offline_tx_unknown cfg) eqn:OF; [eauto|]. destruct (disable_remote cfg) eqn:DR; [eauto|].
  destruct (authorize_req w _) as [r1 q1].
  destruct H as [H|[H|[[i H]|[H|[H|[[H1 H2]|(H1 & H2 & H3)]]]]]].
  - contradiction.
  - contradiction.
  - exfalso. exact (NL i H).
  - rewrite H in V. cbn in V. eauto.
  - congruence.
  - rewrite H1, H2 in OF. discriminate.
  - exfalso. exact (VH H1 H2 H3 eq_refl).
Qed.
Print Assumptions local_attempts_keep_cache_partial.

Example local_attempts_keep_cache_ex :
  cached some_db (tok "C1") (row (tok "C1") (plain_info Accepted) 50000) /\
  fresh (cache_lifetime base_cfg) (now offline_world) (row (tok "C1") (plain_info Accepted) 50000) /\
  cache_hit base_cfg offline_world (tok "C1") some_db (row (tok "C1") (plain_info Accepted) 50000).
Proof. split; [split; [left; reflexivity|reflexivity]|]. split; [apply fresh_iff; vm_compute; reflexivity|]. repeat split; try reflexivity. left; reflexivity. Qed.

(** The answer to a transaction event replaces what the cache says about its token, unless the event ended the
    transaction, the token is of type "Central" or the cache is off. *)
Theorem transaction_event_updates_cache :
  forall cfg n ok ended t i d,
    let d' := transaction_event_response cfg n ok ended (Some t) (Some i) d in
    (ended = false -> iequals (t_type t) "Central" = false -> cache_enabled cfg = true -> ok = true ->
       (forall y, cached d' t y <-> y = {| c_key := t_type t ++ t_id t; c_info := i; c_used := n; c_expiry := i_expiry i |}) /\
       (forall y, c_key y <> t_type t ++ t_id t -> (In y (d_cache d') <-> In y (d_cache d)))) /\
    (ended = true \/ t_type t = "Central" \/ cache_enabled cfg = false \/ ok = false -> d' = d) /\
    (transaction_event_response cfg n ok ended None (Some i) d = d /\ transaction_event_response cfg n ok ended (Some t) None d = d) /\
    (d_list d' = d_list d /\ d_version d' = d_version d /\ d_entries d' = d_entries d).
Proof.
  intros cfg n ok ended t i d. cbv zeta. unfold transaction_event_response. split; [|split; [|split]].
  - intros -> A -> ->. assert (N : ci_ne (t_type t) "Central" = true).
    { unfold ci_ne, str_eq. apply negb_true_iff. destruct (String.eqb_spec (t_type t) "Central") as [E|]; [|reflexivity]. rewrite E in A. discriminate. }
    rewrite N. cbn [andb]. unfold cached. cbn [set_cache d_cache]. unfold token_key. split.
    + intros y. rewrite insert_in. split; [intros [[[_ H]| ->] K]; [contradiction|reflexivity]|]. intros ->. cbn. auto.
    + intros y Y. rewrite insert_in. split; [|auto]. intros [[H _]|H]; auto. subst y. cbn in Y. congruence.
  - intros [-> |[E|[-> | ->]]]; auto; destruct ended; auto; rewrite ?E; unfold ci_ne, str_eq; rewrite ?String.eqb_refl; cbn [negb andb]; rewrite ?andb_false_r; auto.
  - destruct ended; auto.
  - destruct ended; auto. destruct (ci_ne (t_type t) "Central" && cache_enabled cfg && ok); auto.
Qed.
Print Assumptions transaction_event_updates_cache.

Example transaction_event_updates_cache_ex :
  cached (transaction_event_response base_cfg 100000 true false (Some (tok "C1")) (Some (plain_info Blocked)) some_db) (tok "C1")
         (row (tok "C1") (plain_info Blocked) 100000).
Proof. split; [cbn; tauto|reflexivity]. Qed.

(** A token of type "central" needs no authorization like "Central", but its answer is stored in the cache. *)
Theorem central_not_cached_refuted :
  exists t i d, exempt base_cfg t /\ ~ cached d t (row t i 100000) /\
    cached (transaction_event_response base_cfg 100000 true false (Some t) (Some i) d) t (row t i 100000).
Proof.
  exists {| t_id := "R1"; t_type := "central" |}, (plain_info Accepted), {| d_cache := []; d_list := []; d_version := 0; d_entries := None |}.
  split; [left; reflexivity|]. split; [intros [[] _]|]. split; [left; reflexivity|reflexivity].
Qed.
Print Assumptions central_not_cached_refuted.

(** ** C37: local list updates *)

(** Any history of updates gives the answers, the list and the version the specification prescribes, starting from any
    list; the number of entries is kept up to date; the cache is not touched. *)
Theorem local_list_history :
  forall qs d m v, represents d m v ->
    Forall (fun x => db_works (snd (fst x)) /\ Forall (fun e => standard (a_token e)) (entries (snd x))) qs ->
    exists ss m' v', fst (run_updates qs d) = map Some ss /\
      history_spec (map (fun x => (fst (fst x), snd x)) qs) m v ss m' v' /\
      represents (snd (run_updates qs d)) m' v' /\ d_cache (snd (run_updates qs d)) = d_cache d.
Proof.
  induction qs as [|[[e w] q] qs IH]; intros d m v R F.
  - exists [], m, v. cbn. split; [reflexivity|]. split; [constructor|]. auto.
  - inversion F as [|? ? [W S] F']; subst. cbn in W, S. pose proof (update_ok e w q d m v W S R) as U. cbn [run_updates].
    destruct (send_local_list e w q d) as [s d1]. destruct U as (st & m1 & v1 & -> & U & R1 & C1 & _).
    destruct (IH d1 m1 v1 R1 F') as (ss & m2 & v2 & A & B & C & D). destruct (run_updates qs d1) as [ss' d2]. cbn [fst snd] in *. subst ss'.
    exists (st :: ss), m2, v2. split; [reflexivity|]. split; [econstructor; eassumption|]. split; [exact C|]. congruence.
Qed.
Print Assumptions local_list_history.

Definition fine : list_world := {| clear_ok := true; entry_ok := fun _ => true; version_get_ok := true; version_set_ok := true; count_ok := true |}.
Definition put (i : string) (s : status) : auth_data := {| a_token := tok i; a_info := Some (plain_info s) |}.
Definition del (i : string) : auth_data := {| a_token := tok i; a_info := None |}.

Example local_list_history_ex :
  let qs := [(true, fine, {| l_version := 5; l_type := Full; l_list := Some [put "A" Accepted; put "B" Blocked] |});
             (true, fine, {| l_version := 5; l_type := Differential; l_list := Some [del "A"] |});
             (true, fine, {| l_version := 6; l_type := Differential; l_list := Some [del "A"; put "D" Accepted] |});
             (true, fine, {| l_version := 7; l_type := Full; l_list := Some [put "A" Accepted; put "a" Blocked] |})] in
  Forall (fun x => db_works (snd (fst x)) /\ Forall (fun e => standard (a_token e)) (entries (snd x))) qs /\
  run_updates qs some_db =
    ([Some LAccepted; Some VersionMismatch; Some LAccepted; Some LFailed],
     {| d_cache := d_cache some_db; d_list := [("ISO14443B", plain_info Blocked); ("ISO14443D", plain_info Accepted)];
        d_version := 6; d_entries := Some 2 |}).
Proof.
  cbv zeta. split; [|vm_compute; reflexivity].
  assert (W : db_works fine) by (repeat split).
  repeat (apply Forall_cons; [split; [exact W|repeat (apply Forall_cons; [unfold standard; cbn; tauto|]); apply Forall_nil]|]). apply Forall_nil.
Qed.

(** The specification gives one answer, so the answers above are determined. *)
Theorem update_spec_deterministic :
  forall e q m v s m1 v1 s' m1' v1', update_spec e q m v s m1 v1 -> update_spec e q m v s' m1' v1' -> s = s' /\ m1 = m1' /\ v1 = v1'.
Proof.
  intros. destruct H, H0; try congruence; try lia; auto; exfalso;
    repeat match goal with
    | H : _ \/ _ |- _ => destruct H
    | H : exists _, _ |- _ => destruct H
    | H : _ /\ _ |- _ => destruct H
    end; try contradiction;
    try (match goal with H : forall x, In x _ -> a_info x <> None, I : In ?y _ |- _ => apply (H y I); assumption end).
Qed.
Print Assumptions update_spec_deterministic.

(** A refused update leaves everything as it was, and after an accepted one version and number of entries are those of
    the list. *)
Theorem refused_update_changes_nothing :
  forall e w q d, db_works w -> Forall (fun x => standard (a_token x)) (entries q) -> NoDup (map fst (d_list d)) ->
    let (s, d') := send_local_list e w q d in
    (s = Some LAccepted /\ d_version d' = l_version q /\ 0 < d_version d' /\ d_entries d' = Some (Z.of_nat (List.length (d_list d')))) \/
    (s <> Some LAccepted /\ d' = d).
Proof.
  intros e w q d W S N.
  assert (R : represents d (fun t => list_get (token_key t) (d_list d)) (d_version d)).
  { split; [reflexivity|]. intros t _ i. split; [apply list_unique; auto|apply list_get_in]. }
  pose proof (update_ok e w q d _ _ W S R) as U. destruct (send_local_list e w q d) as [s d'].
  destruct U as (st & m' & v' & -> & U & [RV _] & _ & _ & E & X). destruct st; [left|right; split; [discriminate|apply X; discriminate]..].
  split; [reflexivity|]. rewrite RV. inversion U; subst; auto.
Qed.
Print Assumptions refused_update_changes_nothing.

(** The version reported is that of the list, 0 if the list is disabled. *)
Theorem reported_version :
  forall qs d, Forall (fun x => db_works (snd (fst x)) /\ Forall (fun e => standard (a_token e)) (entries (snd x))) qs ->
    NoDup (map fst (d_list d)) ->
    let (ss, d') := run_updates qs d in
    get_local_list_version false true d' = Some 0 /\
    get_local_list_version true true d' =
      Some (fold_left (fun v x => match fst x with Some LAccepted => l_version (snd x) | _ => v end) (combine ss (map snd qs)) (d_version d)).
Proof.
  induction qs as [|[[e w] q] qs IH]; intros d F N; cbn [run_updates].
  - split; reflexivity.
  - inversion F as [|? ? [W S] F']; subst. cbn in W, S.
    pose proof (refused_update_changes_nothing e w q d W S N) as R.
    assert (R0 : represents d (fun t => list_get (token_key t) (d_list d)) (d_version d)).
    { split; [reflexivity|]. intros t _ i. split; [apply list_unique; auto|apply list_get_in]. }
    pose proof (update_ok e w q d _ _ W S R0) as U. destruct (send_local_list e w q d) as [s d1].
    destruct U as (st & m' & v' & -> & _ & _ & _ & N' & _). specialize (IH d1 F' (N' N)).
    destruct (run_updates qs d1) as [ss d2]. cbn [combine map snd fold_left fst]. destruct IH as [A B]. split; [exact A|].
    rewrite B. destruct R as [(RS & R & _)|[R ->]]; [injection RS as ->; rewrite R; reflexivity|]. destruct st; [congruence|reflexivity|reflexivity].
Qed.
Print Assumptions reported_version.

(** If the database fails in the middle of a full update, Failed is answered, but the old list is gone. *)
Theorem failed_update_keeps_list_refuted :
  exists w q d s d', send_local_list true w q d = (s, d') /\ s = Some LFailed /\ d_list d <> [] /\ d_list d' = [] /\
    d_version d' = d_version d /\ l_version q > 0.
Proof.
  exists {| clear_ok := true; entry_ok := fun _ => false; version_get_ok := true; version_set_ok := true; count_ok := true |},
    {| l_version := 5; l_type := Full; l_list := Some [put "A" Accepted] |}, some_db.
  do 2 eexists. split; [vm_compute; reflexivity|]. split; [reflexivity|]. split; [discriminate|]. repeat split.
Qed.
Print Assumptions failed_update_keeps_list_refuted.

(** If only the version cannot be written, Failed is answered, but the new list is in force under the old version. *)
Theorem failed_version_keeps_list_refuted :
  exists w q d d', send_local_list true w q d = (Some LFailed, d') /\ d_version d' = d_version d /\
    listed d' (tok "A") (plain_info Accepted) /\ ~ listed d (tok "A") (plain_info Accepted).
Proof.
  exists {| clear_ok := true; entry_ok := fun _ => true; version_get_ok := true; version_set_ok := false; count_ok := true |},
    {| l_version := 5; l_type := Differential; l_list := Some [put "A" Accepted] |}, some_db.
  eexists. split; [vm_compute; reflexivity|]. split; [reflexivity|]. split; [cbn; tauto|]. cbn. intuition discriminate.
Qed.
Print Assumptions failed_version_keeps_list_refuted.

(** If the version cannot be read, a differential update is not answered with a SendLocalListResponse at all. *)
Theorem update_is_answered_refuted :
  exists w q d, 0 < l_version q /\ send_local_list true w q d = (None, d).
Proof.
  exists {| clear_ok := true; entry_ok := fun _ => true; version_get_ok := false; version_set_ok := true; count_ok := true |},
    {| l_version := 5; l_type := Differential; l_list := Some [put "A" Accepted] |}, some_db.
  split; reflexivity.
Qed.
Print Assumptions update_is_answered_refuted.

(** ** C60: the cache is cleaned up *)

(** One round of the clean-up leaves exactly the rows that are still usable, less as many of the least recently used ones
    as the limit on the storage requires. *)
Theorem cache_cleanup_keeps_the_recent :
  forall n lifetime size max d, tables_ok d -> (forall r, 0 <= size r) ->
    let c' := cache_cleanup n lifetime size max (d_cache d) in
    (forall r, In r c' -> In r (d_cache d) /\ fresh lifetime n r) /\
    (max = None -> forall r, In r (d_cache d) -> fresh lifetime n r -> In r c') /\
    (forall m, max = Some m -> 0 <= m ->
       fold_right Z.add 0 (map size c') <= m /\
       (forall r x, In r (d_cache d) -> fresh lifetime n r -> ~ In r c' -> In x c' -> c_used r <= c_used x) /\
       ((forall r, In r (d_cache d) -> fresh lifetime n r -> In r c') \/
        exists r, In r (d_cache d) /\ fresh lifetime n r /\ ~ In r c' /\ m < fold_right Z.add 0 (map size c') + size r)).
Proof.
  intros n lifetime size max d (TN & _ & TE) P. cbv zeta. unfold cache_cleanup.
  set (c := cache_delete_expired n lifetime (d_cache d)).
  assert (CI : forall r, In r c <-> In r (d_cache d) /\ fresh lifetime n r).
  { intros r. unfold c, cache_delete_expired. rewrite filter_In, negb_true_iff. rewrite Forall_forall in TE. split.
    - intros [I H]. split; auto. apply row_expired_iff; auto.
    - intros [I H]. split; auto. apply row_expired_iff; auto. }
  assert (CN : NoDup (map c_key c)) by (apply nodup_filter; exact TN). clearbody c.
  assert (FS : forall l, cache_size size l = fold_right Z.add 0 (map size l)).
  { induction l; cbn; auto. unfold cache_size in IHl. rewrite IHl. reflexivity. }
  destruct max as [m|].
  - destruct (Z.ltb_spec m 0) as [NEG|POS].
    + (* a negative limit cannot come from the device model; the loop then empties the cache *)
      split; [|split; [discriminate|intros ? H; injection H as <-; lia]].
      assert (SUB : forall f l r, In r (shrink f size m l) -> In r l).
      { induction f; intros l r; cbn; auto. destruct (_ <? _); auto. intros I. apply IHf in I. unfold cache_delete_oldest in I.
        destruct (oldest l); auto. apply delete_in in I. tauto. }
      intros r I. apply CI. eapply SUB. exact I.
    + pose proof (shrink_spec size m P POS (List.length c) c (Nat.le_refl _) CN) as S. cbv zeta in S.
      set (c' := shrink (List.length c) size m c) in *. clearbody c'. destruct S as (S1 & S2 & S3 & S4 & S5).
      split; [intros r I; apply CI, S3, I|]. split; [discriminate|]. intros m' H _. injection H as <-.
      rewrite FS in S1. split; [exact S1|]. split.
      * intros r x I F NI X. apply S4; auto. apply CI. auto.
      * destruct S5 as [->|(r & I & NI & G)]; [left; intros r I F; apply CI; auto|right].
        exists r. apply CI in I. rewrite FS in G. tauto.
  - split; [intros r I; apply CI, I|]. split; [intros _ r I F; apply CI; auto|]. discriminate.
Qed.
Print Assumptions cache_cleanup_keeps_the_recent.

Example cache_cleanup_ex :
  tables_ok some_db /\
  map c_used (cache_cleanup 100000 (Some 60) (fun _ => 10) None (d_cache some_db)) = [50000; 90000; 99000] /\
  map c_used (cache_cleanup 100000 (Some 60) (fun _ => 10) (Some 25) (d_cache some_db)) = [90000; 99000].
Proof. split; [exact some_db_ok|]. split; vm_compute; reflexivity. Qed.

(** The clean-up never removes a row that validation would still honour, as long as the storage suffices: both use the
    same rule. *)
Theorem cleanup_agrees_with_validation :
  forall cfg w d r, tables_ok d -> In r (d_cache d) ->
    (In r (cache_cleanup (now w) (cache_lifetime cfg) (fun _ => 0) None (d_cache d)) <-> cache_row_expired cfg w r = false).
Proof.
  intros cfg w d r T I. pose proof (cache_cleanup_keeps_the_recent (now w) (cache_lifetime cfg) (fun _ => 0) None d T ltac:(intros; lia)) as (A & B & _).
  rewrite fresh_iff. split; [intros H; apply A, H|]. intros H. apply B; auto.
Qed.
Print Assumptions cleanup_agrees_with_validation.

(** ClearCache empties the enabled cache and nothing else, and is rejected if it is disabled; clearing customer information
    removes the token from the cache and nothing else. *)
Theorem cache_can_be_cleared :
  (forall cfg d, cache_enabled cfg = true -> clear_cache_req cfg true d =
     (Some true, {| d_cache := []; d_list := d_list d; d_version := d_version d; d_entries := d_entries d |})) /\
  (forall cfg d ok, cache_enabled cfg = false -> clear_cache_req cfg ok d = (Some false, d)) /\
  (forall cfg d, cache_enabled cfg = true -> clear_cache_req cfg false d = (None, d)) /\
  (forall d t, let d' := clear_customer true (Some t) d in
     (forall x, In x (d_cache d') <-> In x (d_cache d) /\ c_key x <> t_type t ++ t_id t) /\
     d_list d' = d_list d /\ d_version d' = d_version d /\ d_entries d' = d_entries d) /\
  (forall ok d, clear_customer ok None d = d).
Proof.
  split; [|split; [|split; [|split]]].
  - intros cfg d E. unfold clear_cache_req. rewrite E. reflexivity.
  - intros cfg d ok E. unfold clear_cache_req. rewrite E. reflexivity.
  - intros cfg d E. unfold clear_cache_req. rewrite E. reflexivity.
  - intros d t. cbn. split; [|auto]. intros x. apply delete_in.
  - reflexivity.
Qed.
Print Assumptions cache_can_be_cleared.

Example cache_can_be_cleared_ex :
  cache_enabled base_cfg = true /\ List.length (d_cache some_db) = 5%nat /\ List.length (d_cache (clear_customer true (Some (tok "C2")) some_db)) = 4%nat.
Proof. split; [reflexivity|]. split; reflexivity. Qed.
