(** Specification of the authorization decision, the cache and the local list. *)
From Coq Require Import ZArith String Ascii List Bool.
From Verif Require Import StrModel AuthModel.
Import ListNotations.
Local Open Scope string_scope.
Local Open Scope Z_scope.

(** Rows of the tables. *)
Definition cached (d : db) (t : token) (r : cache_row) : Prop := In r (d_cache d) /\ c_key r = t_type t ++ t_id t.
Definition listed (d : db) (t : token) (i : info) : Prop := In (t_type t ++ t_id t, i) (d_list d).

(** One row per key, and the expiry column is that of the stored IdTokenInfo. *)
Definition tables_ok (d : db) : Prop :=
  NoDup (map c_key (d_cache d)) /\ NoDup (map fst (d_list d)) /\ Forall (fun r => c_expiry r = i_expiry (c_info r)) (d_cache d).

(** A cached row may be used at [now]: neither its lifetime nor its expiry date is over. *)
Definition fresh (lifetime : option Z) (now : Z) (r : cache_row) : Prop :=
  (forall l, lifetime = Some l -> now <= c_used r + 1000 * l) /\
  (forall e, i_expiry (c_info r) = Some e -> now <= e).

(** Local checks are permitted. *)
Definition local_checks (cfg : config) (w : world) : Prop :=
  if online w then local_pre_authorize cfg = true else local_authorize_offline cfg = true.

(** No authorization needed. *)
Definition exempt (cfg : config) (t : token) : Prop :=
  iequals (t_type t) "Central" = true \/ iequals (t_type t) "NoAuthorization" = true \/ auth_enabled cfg = false.

Definition contract (t : token) : Prop := iequals (t_type t) "eMAID" = true.

(** A contract may be looked up in list and cache: only offline, after its certificate was found valid locally. *)
Definition contract_cleared (cfg : config) (w : world) (certificate : option string) : Prop :=
  online w = false /\ certificate <> None /\ contract_validation_offline cfg = true /\ verify w = Valid /\
  local_authorize_offline cfg = true.

(** List and cache are consulted for this token. *)
Definition checked (cfg : config) (w : world) (t : token) (certificate : option string) : Prop :=
  ~ exempt cfg t /\ (contract t -> contract_cleared cfg w certificate).

(** The list has an entry for the token that can be used. *)
Definition list_hit (cfg : config) (w : world) (t : token) (d : db) (i : info) : Prop :=
  list_enabled cfg = true /\ local_checks cfg w /\ list_get_ok w = true /\ listed d t i.
Definition no_list_hit (cfg : config) (w : world) (t : token) (d : db) : Prop := forall i, ~ list_hit cfg w t d i.

(** The cache has a row for the token that can be used. *)
Definition cache_hit (cfg : config) (w : world) (t : token) (d : db) (r : cache_row) : Prop :=
  cache_enabled cfg = true /\ local_checks cfg w /\ cache_get_ok w = true /\ cached d t r.

(** What the CSMS said, or Unknown. *)
Definition csms_says (w : world) (q : request) (r : response) (sent : list request) : Prop :=
  if online_at_send w
  then sent = [q] /\ match answer w q with
                     | Some a => r = a
                     | None => r = {| r_info := {| i_status := StUnknown; i_expiry := None; i_rest := 0 |}; r_cert := None |}
                     end
  else sent = [] /\ r = {| r_info := {| i_status := StUnknown; i_expiry := None; i_rest := 0 |}; r_cert := None |}.

Definition unknown : response :=
  {| r_info := {| i_status := StUnknown; i_expiry := None; i_rest := 0 |}; r_cert := None |}.

(** The types of tokens OCPP 2.0.1/2.1 names. *)
Definition standard_types : list string :=
  ["Value"; "Central"; "DirectPayment"; "eMAID"; "EVCCID"; "ISO14443"; "ISO15693"; "KeyCode"; "Local"; "MacAddress"; "NEMA";
   "NoAuthorization"; "VIN"].
Definition standard (t : token) : Prop := In (t_type t) standard_types.

(** ** The local list as a map from tokens *)

Definition token_eqb (a b : token) : bool := String.eqb (t_type a) (t_type b) && String.eqb (t_id a) (t_id b).
Definition tokens := token -> option info.

(** Every entry of the update sets or deletes its token. *)
Definition updated (m : tokens) (l : list auth_data) : tokens :=
  fun t => match find (fun x => token_eqb (a_token x) t) l with Some x => a_info x | None => m t end.

(** Two entries for one token, ignoring case. *)
Definition ambiguous (l : list auth_data) : Prop :=
  exists l1 x l2 y l3, l = (l1 ++ x :: l2 ++ y :: l3)%list /\
    iequals (t_id (a_token x)) (t_id (a_token y)) = true /\ iequals (t_type (a_token x)) (t_type (a_token y)) = true.

Definition entries (q : list_request) : list auth_data := match l_list q with Some l => l | None => [] end.

(** What an update has to do: the answer and the list and version afterwards. *)
Inductive update_spec (enabled : bool) (q : list_request) (m : tokens) (v : Z) : list_status -> tokens -> Z -> Prop :=
| up_disabled : enabled = false -> update_spec enabled q m v LFailed m v
| up_version : enabled = true -> l_version q <= 0 -> update_spec enabled q m v LFailed m v
| up_full_bad : enabled = true -> 0 < l_version q -> l_type q = Full ->
    (ambiguous (entries q) \/ exists x, In x (entries q) /\ a_info x = None) -> update_spec enabled q m v LFailed m v
| up_full : enabled = true -> 0 < l_version q -> l_type q = Full ->
    ~ ambiguous (entries q) -> (forall x, In x (entries q) -> a_info x <> None) ->
    update_spec enabled q m v LAccepted (updated (fun _ => None) (entries q)) (l_version q)
| up_mismatch : enabled = true -> 0 < l_version q -> l_type q = Differential -> l_version q <= v ->
    update_spec enabled q m v VersionMismatch m v
| up_diff_bad : enabled = true -> 0 < l_version q -> l_type q = Differential -> v < l_version q -> ambiguous (entries q) ->
    update_spec enabled q m v LFailed m v
| up_diff : enabled = true -> 0 < l_version q -> l_type q = Differential -> v < l_version q -> ~ ambiguous (entries q) ->
    update_spec enabled q m v LAccepted (updated m (entries q)) (l_version q).

(** A history of updates. *)
Inductive history_spec : list (bool * list_request) -> tokens -> Z -> list list_status -> tokens -> Z -> Prop :=
| hs_nil m v : history_spec [] m v [] m v
| hs_cons e q qs m v s m1 v1 ss m2 v2 :
    update_spec e q m v s m1 v1 -> history_spec qs m1 v1 ss m2 v2 -> history_spec ((e, q) :: qs) m v (s :: ss) m2 v2.

(** The tables represent the map and the version. *)
Definition represents (d : db) (m : tokens) (v : Z) : Prop :=
  d_version d = v /\ forall t, standard t -> forall i, listed d t i <-> m t = Some i.

(** The database works. *)
Definition db_works (w : list_world) : Prop :=
  clear_ok w = true /\ (forall n, entry_ok w n = true) /\ version_get_ok w = true /\ version_set_ok w = true /\ count_ok w = true.

(** Handling a history of updates. *)
Fixpoint run_updates (qs : list (bool * list_world * list_request)) (d : db) : list (option list_status) * db :=
  match qs with
  | [] => ([], d)
  | (e, w, q) :: qs' => let (s, d1) := send_local_list e w q d in let (ss, d2) := run_updates qs' d1 in (s :: ss, d2)
  end.
