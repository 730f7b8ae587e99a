(** Authorization in OCPP 2.x: validating tokens, the authorization cache and the local authorization list.

    Model of
    - lib/ocpp/v2/functional_blocks/authorization.cpp 59-105, 131-148, 150-404, 420-439, 441-493 (one round), 495-624
    - lib/ocpp/v2/database_handler.cpp 112-225, 272-380      the tables AUTH_CACHE, AUTH_LIST, AUTH_LIST_VERSION
    - lib/ocpp/v2/utils.cpp 125-127                          generate_token_hash
    - lib/ocpp/v2/functional_blocks/transaction.cpp 267-308  handle_transaction_event_response, the part about the cache
    - lib/ocpp/v2/functional_blocks/diagnostics.cpp 411-424  clear_customer_information, the part about the cache

    Simplifications: SHA-256 is taken to be free of collisions, a row is found by the string that is hashed; times are
    milliseconds; an IdTokenInfo is its status, its expiry date and the rest as one number; additionalInfo and customData
    of a token are left out (they do not enter the hash); the size of the cache is a sum of row sizes. The outcome of
    database operations, the connection, the clock, the certificate check and the answers of the CSMS are inputs. *)
From Coq Require Import ZArith String Ascii List Bool.
From Verif Require Import StrModel.
Import ListNotations.
Local Open Scope string_scope.
Local Open Scope Z_scope.

(** ocpp_enums.hpp 58-69: AuthorizationStatusEnum. *)
Inductive status := Accepted | Blocked | ConcurrentTx | StExpired | StInvalid | NoCredit | NotAllowedTypeEVSE
                  | NotAtThisLocation | NotAtThisTime | StUnknown.
Definition is_accepted (s : status) : bool := match s with Accepted => true | _ => false end.

(** ocpp_types.hpp 116-126: IdTokenInfo. *)
Record info := { i_status : status; i_expiry : option Z; i_rest : Z }.
Definition plain_info (s : status) : info := {| i_status := s; i_expiry := None; i_rest := 0 |}.

(** ocpp_types.hpp 66-71: IdToken. *)
Record token := { t_id : string; t_type : string }.

(** utils.cpp 125-127: generate_token_hash, before hashing. *)
Definition token_key (t : token) : string := t_type t ++ t_id t.

(** CertificateValidationResult. *)
Inductive verification := Valid | VExpired | InvalidSignature | IssuerNotFound | InvalidLeafSignature | InvalidChain | VUnknown.

(** AuthorizeCertificateStatusEnum, as far as the station sets it itself; any other value the CSMS sends. *)
Inductive cert_status := CertAccepted | CertificateExpired | CertOther (n : Z).

(** AuthorizeResponse. *)
Record response := { r_info : info; r_cert : option cert_status }.
Definition respond (s : status) : response := {| r_info := plain_info s; r_cert := None |}.

(** AuthorizeRequest. *)
Record request := { q_token : token; q_cert : option string; q_ocsp : option (list string) }.

(** ** Tables *)

Record cache_row := { c_key : string; c_info : info; c_used : Z; c_expiry : option Z }.

Record db := { d_cache : list cache_row; d_list : list (string * info); d_version : Z; d_entries : option Z }.

Definition set_cache c (d : db) := {| d_cache := c; d_list := d_list d; d_version := d_version d; d_entries := d_entries d |}.
Definition set_list l (d : db) := {| d_cache := d_cache d; d_list := l; d_version := d_version d; d_entries := d_entries d |}.
Definition set_version v (d : db) := {| d_cache := d_cache d; d_list := d_list d; d_version := v; d_entries := d_entries d |}.
Definition set_entries n (d : db) := {| d_cache := d_cache d; d_list := d_list d; d_version := d_version d; d_entries := n |}.

(** database_handler.cpp 146-164: authorization_cache_get_entry. *)
Definition cache_get (k : string) (c : list cache_row) : option cache_row := find (fun r => String.eqb (c_key r) k) c.

(** database_handler.cpp 166-175: authorization_cache_delete_entry. *)
Definition cache_delete (k : string) (c : list cache_row) : list cache_row := filter (fun r => negb (String.eqb (c_key r) k)) c.

(** database_handler.cpp 112-131: authorization_cache_insert_entry (INSERT OR REPLACE). *)
Definition cache_insert (now : Z) (k : string) (i : info) (c : list cache_row) : list cache_row :=
  cache_delete k c ++ [{| c_key := k; c_info := i; c_used := now; c_expiry := i_expiry i |}].

(** database_handler.cpp 133-143: authorization_cache_update_last_used. *)
Definition cache_use (now : Z) (k : string) (c : list cache_row) : list cache_row :=
  map (fun r => if String.eqb (c_key r) k
                then {| c_key := c_key r; c_info := c_info r; c_used := now; c_expiry := c_expiry r |} else r) c.

(** database_handler.cpp 189-208: authorization_cache_delete_expired_entries; comparisons with NULL are not true. *)
Definition row_expired (now : Z) (lifetime : option Z) (r : cache_row) : bool :=
  match c_expiry r with Some e => e <? now | None => false end ||
  match lifetime with Some l => c_used r <? now - 1000 * l | None => false end.
Definition cache_delete_expired (now : Z) (lifetime : option Z) (c : list cache_row) : list cache_row :=
  filter (fun r => negb (row_expired now lifetime r)) c.

(** database_handler.cpp 177-187 with 1: the first row in the order of LAST_USED; on a tie the first in the table. *)
Fixpoint oldest (c : list cache_row) : option cache_row :=
  match c with
  | [] => None
  | r :: c' => match oldest c' with
               | Some o => if c_used o <? c_used r then Some o else Some r
               | None => Some r
               end
  end.
Definition cache_delete_oldest (c : list cache_row) : list cache_row :=
  match oldest c with Some o => cache_delete (c_key o) c | None => c end.

(** database_handler.cpp 216-225: authorization_cache_get_binary_size; [size] is the payload of one row. *)
Definition cache_size (size : cache_row -> Z) (c : list cache_row) : Z := fold_right (fun r n => size r + n) 0 c.

(** authorization.cpp 479-482: the loop; every round removes a row, so the number of rows bounds it. *)
Fixpoint shrink (fuel : nat) (size : cache_row -> Z) (max : Z) (c : list cache_row) : list cache_row :=
  match fuel with
  | O => c
  | S f => if max <? cache_size size c then shrink f size max (cache_delete_oldest c) else c
  end.

(** authorization.cpp 463-484: one round of cache_cleanup_handler; [max_storage] is the limit of AuthCacheStorage, already
    converted. *)
Definition cache_cleanup (now : Z) (lifetime : option Z) (size : cache_row -> Z) (max_storage : option Z) (c : list cache_row) : list cache_row :=
  let c := cache_delete_expired now lifetime c in
  match max_storage with Some m => shrink (List.length c) size m c | None => c end.

(** database_handler.cpp 344-362: get_local_authorization_list_entry. *)
Definition list_get (k : string) (l : list (string * info)) : option info :=
  option_map snd (find (fun e => String.eqb (fst e) k) l).
(** database_handler.cpp 333-342. *)
Definition list_delete (k : string) (l : list (string * info)) : list (string * info) :=
  filter (fun e => negb (String.eqb (fst e) k)) l.
(** database_handler.cpp 296-309. *)
Definition list_insert (k : string) (i : info) (l : list (string * info)) : list (string * info) := list_delete k l ++ [(k, i)].

(** ** Validation *)

(** The variables of the device model that are read, with their defaults applied. *)
Record config := { auth_enabled : bool; local_authorize_offline : bool; disable_remote : bool; local_pre_authorize : bool;
                   central_contract_validation : bool; contract_validation_offline : bool;
                   list_enabled : bool; cache_enabled : bool; cache_lifetime : option Z; disable_post_authorize : bool;
                   offline_tx_unknown : bool }.

(** The outside world during one call. *)
Record world := { online : bool;                       (* is_websocket_connected when the call starts *)
                  online_at_send : bool;               (* and when the request is sent *)
                  now : Z;
                  verify : verification;               (* of the given certificate *)
                  mo_ocsp : list string;               (* get_mo_ocsp_request_data *)
                  answer : request -> option response; (* None: time-out, no or no usable answer *)
                  list_get_ok : bool; cache_get_ok : bool; cache_delete_ok : bool; cache_use_ok : bool; cache_insert_ok : bool }.

(** authorization.cpp 59-105: authorize_req. *)
Definition authorize_req (w : world) (q : request) : response * list request :=
  if negb (online_at_send w) then (respond StUnknown, [])
  else match answer w q with
       | Some r => (r, [q])
       | None => (respond StUnknown, [q])
       end.

(** authorization.cpp 174-287: the part for contract certificates; [None] means that list and cache are tried. *)
Definition validate_emaid (cfg : config) (w : world) (t : token) (certificate : option string) (ocsp : option (list string))
  : option (response * list request) :=
  match online w, ocsp, certificate with
  | true, Some o, _ => Some (authorize_req w {| q_token := t; q_cert := None; q_ocsp := Some o |})
  | true, None, Some c =>
      match verify w with
      | IssuerNotFound =>
          if central_contract_validation cfg
          then Some (authorize_req w {| q_token := t; q_cert := Some c; q_ocsp := None |})
          else Some (respond StInvalid, [])
      | _ =>
          match mo_ocsp w with
          | _ :: _ => Some (authorize_req w {| q_token := t; q_cert := None; q_ocsp := Some (mo_ocsp w) |})
          | [] => if central_contract_validation cfg
                  then Some (authorize_req w {| q_token := t; q_cert := Some c; q_ocsp := None |})
                  else Some (respond StInvalid, [])
          end
      end
  | false, _, Some c =>
      if contract_validation_offline cfg then
        match verify w with
        | Valid => if local_authorize_offline cfg then None
                   else Some ({| r_info := plain_info StUnknown; r_cert := Some CertAccepted |}, [])
        | VExpired => Some ({| r_info := plain_info StExpired; r_cert := Some CertificateExpired |}, [])
        | InvalidSignature | IssuerNotFound | InvalidLeafSignature | InvalidChain | VUnknown => Some (respond StUnknown, [])
        end
      else Some (respond NotAtThisTime, [])
  | _, _, None => Some (respond StInvalid, [])
  end.

(** authorization.cpp 289-291. *)
Definition can_locally_check (cfg : config) (w : world) : bool :=
  (online w && local_pre_authorize cfg) || (negb (online w) && local_authorize_offline cfg).

(** authorization.cpp 292-324: the local list; [None] when there is no entry. *)
Definition validate_list (cfg : config) (w : world) (t : token) (certificate : option string) (ocsp : option (list string)) (d : db)
  : option (response * list request) :=
  if list_enabled cfg && can_locally_check cfg w then
    match (if list_get_ok w then list_get (token_key t) (d_list d) else None) with
    | Some i =>
        Some (if is_accepted (i_status i) then ({| r_info := i; r_cert := None |}, [])
              else if disable_remote cfg then (respond StUnknown, [])
              else if online w then authorize_req w {| q_token := t; q_cert := certificate; q_ocsp := ocsp |}
              else (respond StUnknown, []))
    | None => None
    end
  else None.

(** authorization.cpp 336-342: whether a cached entry has expired. *)
Definition cache_row_expired (cfg : config) (w : world) (r : cache_row) : bool :=
  match cache_lifetime cfg with Some l => c_used r + 1000 * l <? now w | None => false end ||
  match i_expiry (c_info r) with Some e => e <? now w | None => false end.

(** authorization.cpp 326-373: the cache; the answer if there is one, and the cache afterwards. *)
Definition validate_cache (cfg : config) (w : world) (t : token) (d : db) : option response * list cache_row :=
  let k := token_key t in
  if cache_enabled cfg && can_locally_check cfg w then
    match (if cache_get_ok w then cache_get k (d_cache d) else None) with
    | Some row =>
        if cache_row_expired cfg w row
        then (None, if cache_delete_ok w then cache_delete k (d_cache d) else d_cache d)
        else if is_accepted (i_status (c_info row)) then
          (* a failing update of LAST_USED leaves the block by the exception *)
          (if cache_use_ok w
           then (Some {| r_info := c_info row; r_cert := None |}, cache_use (now w) k (d_cache d))
           else (None, d_cache d))
        else if disable_post_authorize cfg then (Some {| r_info := c_info row; r_cert := None |}, d_cache d)
        else (None, d_cache d)
    | None => (None, d_cache d)
    end
  else (None, d_cache d).

(** CiString == of the type with one of the constants (types.hpp 231-245). *)
Definition has_type (name : string) (t : token) : bool := iequals (t_type t) name.

(** authorization.cpp 150-404: validate_token: the response, the requests sent, the tables afterwards. *)
Definition validate_token (cfg : config) (w : world) (t : token) (certificate : option string) (ocsp : option (list string)) (d : db)
  : response * list request * db :=
  if has_type "Central" t || has_type "NoAuthorization" t || negb (auth_enabled cfg) then (respond Accepted, [], d)
  else
    match (if has_type "eMAID" t then validate_emaid cfg w t certificate ocsp else None) with
    | Some (r, q) => (r, q, d)
    | None =>
        match validate_list cfg w t certificate ocsp d with
        | Some (r, q) => (r, q, d)
        | None =>
            let (a, c) := validate_cache cfg w t d in
            match a with
            | Some r => (r, [], set_cache c d)
            | None =>
                if negb (online w) && offline_tx_unknown cfg then (respond Accepted, [], set_cache c d)
                else if disable_remote cfg then (respond StUnknown, [], set_cache c d)
                else
                  let (r, q) := authorize_req w {| q_token := t; q_cert := certificate; q_ocsp := ocsp |} in
                  let c := if cache_enabled cfg && cache_insert_ok w then cache_insert (now w) (token_key t) (r_info r) c else c in
                  (r, q, set_cache c d)
            end
        end
    end.

(** transaction.cpp 279-308: what the answer to a TransactionEvent does to the cache. [ended]: the event was of type Ended. *)
Definition transaction_event_response (cfg : config) (now : Z) (insert_ok ended : bool) (t : option token) (i : option info) (d : db) : db :=
  if ended then d
  else match i, t with
       | Some i, Some t =>
           if ci_ne (t_type t) "Central" && cache_enabled cfg && insert_ok
           then set_cache (cache_insert now (token_key t) i (d_cache d)) d else d
       | _, _ => d
       end.

(** authorization.cpp 420-439: handle_clear_cache_req; [None] is the CALLERROR. *)
Definition clear_cache_req (cfg : config) (ok : bool) (d : db) : option bool * db :=
  if cache_enabled cfg then (if ok then (Some true, set_cache [] d) else (None, d)) else (Some false, d).

(** diagnostics.cpp 418-424: clear_customer_information. *)
Definition clear_customer (ok : bool) (t : option token) (d : db) : db :=
  match t with
  | Some t => if ok then set_cache (cache_delete (token_key t) (d_cache d)) d else d
  | None => d
  end.

(** ** The local list *)

Inductive update_type := Full | Differential.
Record auth_data := { a_token : token; a_info : option info }.
Record list_request := { l_version : Z; l_type : update_type; l_list : option (list auth_data) }.
Inductive list_status := LAccepted | LFailed | VersionMismatch.

(** authorization.cpp 610-619: has_duplicate_in_list. *)
Definition same_token (a b : token) : bool := iequals (t_id a) (t_id b) && iequals (t_type a) (t_type b).
Fixpoint has_duplicate (l : list auth_data) : bool :=
  match l with
  | [] => false
  | x :: l' => existsb (fun y => same_token (a_token x) (a_token y)) l' || has_duplicate l'
  end.

(** authorization.cpp 621-623. *)
Definition has_no_token_info (x : auth_data) : bool := match a_info x with Some _ => false | None => true end.

(** The outcome of the database operations of one request: clearing, each entry, reading and writing the version, the
    number of entries. *)
Record list_world := { clear_ok : bool; entry_ok : nat -> bool; version_get_ok : bool; version_set_ok : bool; count_ok : bool }.

(** database_handler.cpp 311-331: insert_or_update_local_authorization_list; goes on after a failure. *)
Fixpoint apply_entries (ok : nat -> bool) (n : nat) (l : list auth_data) (t : list (string * info)) : list (string * info) * bool :=
  match l with
  | [] => (t, true)
  | x :: l' =>
      let t' := if ok n then match a_info x with
                             | Some i => list_insert (token_key (a_token x)) i t
                             | None => list_delete (token_key (a_token x)) t
                             end
                else t in
      let (t'', s) := apply_entries ok (S n) l' t' in (t'', ok n && s)
  end.

(** authorization.cpp 555-607: apply_local_authorization_list; [None]: the exception of get_local_authorization_list_version
    is not caught. *)
Definition apply_list (w : list_world) (q : list_request) (d : db) : option list_status * db :=
  let l := match l_list q with Some l => l | None => [] end in
  if l_version q <=? 0 then (Some LFailed, d)
  else match l_type q with
       | Full =>
           match l with
           | [] => if clear_ok w then (Some LAccepted, set_list [] d) else (Some LFailed, d)
           | _ => if negb (has_duplicate l) && negb (existsb has_no_token_info l) then
                    if clear_ok w then
                      let (t, s) := apply_entries (entry_ok w) 0 l [] in
                      (Some (if s then LAccepted else LFailed), set_list t d)
                    else (Some LFailed, d)
                  else (Some LFailed, d)
           end
       | Differential =>
           if negb (version_get_ok w) then (None, d)
           else if l_version q <=? d_version d then (Some VersionMismatch, d)
           else match l with
                | [] => (Some LAccepted, d)
                | _ => if has_duplicate l then (Some LFailed, d)
                       else let (t, s) := apply_entries (entry_ok w) 0 l (d_list d) in
                            (Some (if s then LAccepted else LFailed), set_list t d)
                end
       end.

(** authorization.cpp 495-532: handle_send_local_authorization_list_req; [enabled] is LocalAuthListCtrlrEnabled. *)
Definition send_local_list (enabled : bool) (w : list_world) (q : list_request) (d : db) : option list_status * db :=
  if enabled then
    match apply_list w q d with
    | (Some LAccepted, d) =>
        if version_set_ok w then
          let d := set_version (l_version q) d in
          (Some LAccepted, if count_ok w then set_entries (Some (Z.of_nat (List.length (d_list d)))) d else d)
        else (Some LFailed, d)
    | r => r
    end
  else (Some LFailed, d).

(** authorization.cpp 534-553: handle_get_local_authorization_list_version_req; [None] is the CALLERROR. *)
Definition get_local_list_version (enabled ok : bool) (d : db) : option Z :=
  if enabled then (if ok then Some (d_version d) else None) else Some 0.
