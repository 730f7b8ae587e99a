(** Authorization of id tags, local list, authorization cache and reservations of an OCPP 1.6 station.

    Model of the parts of lib/ocpp/v16/charge_point_impl.cpp (lines given alone are of that file) that decide about id tags, with the
    tables AUTH_LIST, AUTH_LIST_VERSION and AUTH_CACHE of lib/ocpp/v16/database_handler.cpp.

    Simplifications. Times are numbers. The configuration, the connection, the clock, failing queries of the two tables and what the
    CSMS answers are arguments; no other SQL statement fails. That the process dies between two statements of an update of the list is an
    operation of its own. Ids of charging sessions, and tariff messages but for where they come from, are left out. *)
From Coq Require Import String ZArith NArith List Bool.
Import ListNotations.
Local Open Scope Z_scope.

(** ** Data *)
(** AuthorizationStatus (ocpp_enums.hpp 15-21). *)
Inductive status := Accepted | Blocked | Expired | Invalid | ConcurrentTx.
(** IdTagInfo (ocpp_types.hpp). *)
Record info := Info { i_status : status; i_expiry : option Z; i_parent : option string }.
(** The websocket (null before the first connection). *)
Inductive conn := NoSocket | Offline | Online.
(** The configuration keys LocalPreAuthorize, LocalAuthorizeOffline, LocalAuthListEnabled, AuthorizationCacheEnabled, whether
    SupportedFeatureProfiles has LocalAuthListManagement, AllowOfflineTxForUnknownId, CustomDisplayCostAndPrice. *)
Record cfg := Cfg { c_pre : bool; c_off : bool; c_list : bool; c_cache : bool; c_mgmt : bool; c_unknown : bool; c_price : bool }.
(** The three tables. *)
Record st := St { cache : list (string * info); entries : list (string * info); version : option Z }.
(** A database after the migrations and init_sql (database_handler.cpp 23-30). *)
Definition initial : st := St [] [] (Some 0).
Definition set_cache (s : st) l := St l (entries s) (version s).
Definition set_entries (s : st) l := St (cache s) l (version s).
Definition set_version (s : st) v := St (cache s) (entries s) v.

(** ** Tables *)
(** A row by its primary key; SQLite compares text byte by byte. *)
Fixpoint get (tag : string) (l : list (string * info)) : option info :=
  match l with [] => None | (k, i) :: r => if String.eqb k tag then Some i else get tag r end.
(** delete_local_authorization_list_entry (database_handler.cpp 452-460). *)
Definition del (tag : string) (l : list (string * info)) : list (string * info) := filter (fun e => negb (String.eqb (fst e) tag)) l.
(** INSERT OR REPLACE (database_handler.cpp 232-255, 407-428). *)
Definition put (tag : string) (i : info) (l : list (string * info)) : list (string * info) := (tag, i) :: del tag l.
(** get_authorization_cache_entry (database_handler.cpp 257-300) and get_local_authorization_list_entry (462-505): an entry whose date
    has passed is stored as expired. *)
Definition expire (now : Z) (i : info) : option info :=
  match i_status i, i_expiry i with
  | Expired, _ => None
  | _, Some e => if e <=? now then Some (Info Expired (Some e) (i_parent i)) else None
  | _, None => None
  end.
Definition look (now : Z) (tag : string) (l : list (string * info)) : list (string * info) * option info :=
  match get tag l with
  | None => (l, None)
  | Some i => match expire now i with
              | Some i' => (put tag i' l, Some i')
              | None => (l, Some i)
              end
  end.

(** ** Authorization *)
Definition is_accepted (i : info) : bool := match i_status i with Accepted => true | _ => false end.
(** What the calls of DateTime() return and which queries fail while a tag is looked up: the list, validate_against_cache_entries (twice
    the clock), the cache. *)
Record env := Env { t_list : Z; t_cache : Z; t_valid : Z; t_again : Z; f_list : bool; f_cache : bool; f_again : bool }.
(** validate_against_cache_entries (2246-2275); None: the query fails and the function ends without a value. *)
Definition validate (e : env) (tag : string) (s : st) : st * option bool :=
  if f_cache e then (s, None)
  else
    let (l, r) := look (t_cache e) tag (cache s) in
    let s1 := set_cache s l in
    match r with
    | None => (s1, Some false)
    | Some i =>
        if is_accepted i then
          match i_expiry i with
          | None => (s1, Some true)
          | Some x => if x <? t_valid e then (set_cache s1 (put tag (Info Expired (Some x) (i_parent i)) (cache s1)), Some false)
                      else (s1, Some true)
          end
        else (s1, Some false)
    end.
(** What becomes of the Authorize.req: the answer; none in time; the queue says that the station is offline; anything else. *)
Inductive answer := Conf (i : info) | Timeout | WhenOffline | NoConf.
(** Where the tariff message is from: getDefaultTariffMessage (online or offline), or a SetUserPrice. *)
Inductive tariff := NoTariff | DefaultTariff (offline : bool) | UserPrice (p : N).
Definition invalid : info := Info Invalid None None.
(** A decision: what is returned, and whether Authorize.req was sent; or undefined behaviour. *)
Inductive result := Res (i : info) (t : tariff) (sent : bool) | UB.
Definition online (c : conn) : bool := match c with Online => true | _ => false end.
(** update_tariff_message_if_eligible (3501-3508): the websocket may be null. *)
Definition local_result (g : cfg) (c : conn) (i : info) : result :=
  if is_accepted i && c_price g then
    match c with NoSocket => UB | Offline => Res i (DefaultTariff true) false | Online => Res i (DefaultTariff false) false end
  else Res i NoTariff false.
(** 3497-3541: the local part of authorize_id_token. *)
Definition in_list (g : cfg) (e : env) (tag : string) (s : st) : st * option info :=
  if c_list g && negb (f_list e) then let (l, r) := look (t_list e) tag (entries s) in (set_entries s l, r) else (s, None).
Definition in_cache (g : cfg) (e : env) (tag : string) (s : st) : st * option (option info) :=
  if c_cache g then
    match validate e tag s with
    | (s1, None) => (s1, None)
    | (s1, Some false) => (s1, Some None)
    | (s1, Some true) => if f_again e then (s1, Some None)
                         else let (l, r) := look (t_again e) tag (cache s1) in (set_cache s1 l, Some r)
    end
  else (s, Some None).
Definition locally (g : cfg) (c : conn) (e : env) (tag : string) (s : st) : st * option result :=
  if (c_pre g && online c) || (c_off g && negb (online c)) then
    match in_list g e tag s with
    | (s1, Some i) => (s1, Some (local_result g c i))
    | (s1, None) =>
        match in_cache g e tag s1 with
        | (s2, None) => (s2, Some UB)
        | (s2, Some (Some i)) => (s2, Some (local_result g c i))
        | (s2, Some None) => (s2, None)
        end
    end
  else (s, None).
(** authorize_id_token (3486-3610). [price]: a SetUserPrice for the tag comes while it is waited for. *)
Definition authorize (g : cfg) (c : conn) (e : env) (tag : string) (only_locally : bool) (a : answer) (price : option N) (s : st) : st * result :=
  match locally g c e tag s with
  | (s1, Some r) => (s1, r)
  | (s1, None) =>
      if only_locally then (s1, Res invalid NoTariff false)
      else match a with
           | Conf i => (set_cache s1 (put tag i (cache s1)),
                        Res i (if c_price g && is_accepted i then match price with Some p => UserPrice p | None => DefaultTariff false end
                               else NoTariff) true)
           | WhenOffline => (s1, Res (if c_unknown g then Info Accepted None None else invalid) NoTariff true)
           | Timeout | NoConf => (s1, Res invalid NoTariff true)
           end
  end.

(** ** Contract certificates *)
(** CertificateValidationResult (common/types.hpp 473-481). *)
Inductive validation := VValid | VExpired | VInvalidSignature | VIssuerNotFound | VInvalidLeafSignature | VInvalidChain | VUnknown.
(** v2::AuthorizationStatusEnum, those that are used. *)
Inductive status2 := PAccepted | PInvalid | PUnknown | PExpired | PNotAtThisTime | POther (k : N).
(** What is sent to the CSMS: hashes given by the vehicle, hashes made from the certificate, or the certificate itself. *)
Inductive sent := GivenHashes | MadeHashes | Certificate.
(** PnC enabled (both keys), CentralContractValidationAllowed, ContractValidationOffline. *)
Record pcfg := PCfg { p_enabled : bool; p_central : bool; p_offline : bool }.
Inductive presult := PRes (x : status2) (m : option sent) | PThrow | PUB.
(** data_transfer_pnc_authorize (3670-3843). [hashes]: given by the vehicle. [cert]: the certificate chain, what verify_certificate says
    and whether hashes can be made from it. [reply]: the status that the CSMS answers, if it is answered and can be parsed. *)
Definition pnc (g : cfg) (p : pcfg) (c : conn) (e : env) (emaid : string) (hashes : bool) (cert : option (validation * bool))
    (reply : option status2) (s : st) : st * presult :=
  let forward m := (s, PRes (match reply with Some x => x | None => PUnknown end) (Some m)) in
  if p_enabled p then
    match c with
    | NoSocket => (s, PUB)
    | _ =>
      if online c && hashes then forward GivenHashes
      else match cert with
           | None => (s, PRes PInvalid None)
           | Some (v, made) =>
               if online c then
                 match v with
                 | VIssuerNotFound => if p_central p then forward Certificate else (s, PRes PInvalid None)
                 | _ => if made then forward MadeHashes
                        else if p_central p then forward Certificate else (s, PRes PInvalid None)
                 end
               else if p_offline p then
                 match v with
                 | VValid =>
                     if c_off g then
                       if (20 <? Z.of_nat (String.length emaid)) then (s, PThrow)
                       else match authorize g c e emaid true NoConf None s with
                            | (s1, Res i _ _) => (s1, PRes (if is_accepted i then PAccepted else PInvalid) None)
                            | (s1, UB) => (s1, PUB)
                            end
                     else (s, PRes PUnknown None)
                 | VExpired => (s, PRes PExpired None)
                 | _ => (s, PRes PUnknown None)
                 end
               else (s, PRes PNotAtThisTime None)
           end
    end
  else (s, PRes PInvalid None).

(** ** The local list *)
Inductive update := Full | Differential.
Inductive update_status := UAccepted | UFailed | UNotSupported | UVersionMismatch.
(** One statement of an update. *)
Inductive stmt := SClear | SVersion (v : Z) | SPut (tag : string) (i : info) | SDelete (tag : string).
Definition exec (s : st) (x : stmt) : st :=
  match x with
  | SClear => set_entries s []
  | SVersion v => set_version s (Some v)
  | SPut t i => set_entries s (put t i (entries s))
  | SDelete t => set_entries s (del t (entries s))
  end.
(** insert_or_update_local_authorization_list (database_handler.cpp 430-450). *)
Definition change_of (e : string * option info) : stmt := match snd e with Some i => SPut (fst e) i | None => SDelete (fst e) end.
(** handleSendLocalListRequest (3145-3197). *)
Definition enabled (g : cfg) : bool := c_mgmt g && c_list g.
Definition plan (g : cfg) (u : update) (v : Z) (l : option (list (string * option info))) (s : st) : list stmt * update_status :=
  if enabled g then
    match u, l with
    | Full, Some l => (SClear :: SVersion v :: map change_of l, UAccepted)
    | Full, None => ([SVersion v; SClear], UAccepted)
    | Differential, Some l =>
        match version s with
        | Some old => if old <? v then (SVersion v :: map change_of l, UAccepted) else ([], UVersionMismatch)
        | None => ([SVersion 0], UFailed)
        end
    | Differential, None => ([], UFailed)
    end
  else ([], UNotSupported).
(** handleGetLocalListVersionRequest (3199-3236); None: CALLERROR. *)
Definition get_version (g : cfg) (s : st) : st * option Z :=
  if enabled g then
    match entries s with
    | [] => (s, Some 0)
    | _ => match version s with Some v => (s, Some v) | None => (set_version s (Some 0), None) end
    end
  else (s, Some (-1)).

(** ** Reservations *)
(** ChargePointStatus of the connector (get_state, charge_point_state_machine.cpp 379-390: Unavailable if it does not exist). *)
Inductive cstate := CFaulted | CPreparing | CElse.
Inductive reservation := RAccepted | RFaulted | ROccupied | RRejected | RUnavailable.
(** handleReserveNowRequest (3112-3130). [callback]: what the application answers, if it has registered the callback. [profile]:
    "Reservation" occurs in SupportedFeatureProfiles. [zero]: ReserveConnectorZeroSupported. *)
Definition reserve (connector : Z) (x : cstate) (profile zero : bool) (callback : option reservation) : reservation * bool :=
  match x with
  | CFaulted => (RFaulted, false)
  | CPreparing => (ROccupied, false)
  | CElse => match callback with
             | Some r => if profile && (negb (connector =? 0) || zero) then (r, true) else (RRejected, false)
             | None => (RRejected, false)
             end
  end.
(** handleCancelReservationRequest (3132-3143). *)
Definition cancel (callback : option bool) : bool := match callback with Some b => b | None => false end.

(** ** Everything that can happen *)
Inductive op :=
| Authorize (g : cfg) (c : conn) (e : env) (tag : string) (only_locally : bool) (a : answer) (price : option N)
| Pnc (g : cfg) (p : pcfg) (c : conn) (e : env) (emaid : string) (hashes : bool) (cert : option (validation * bool)) (reply : option status2)
| StartConf (tag : string) (i : info)
| StopConf (tag : string) (i : info)
| ClearCache (g : cfg)
| SendList (g : cfg) (u : update) (v : Z) (l : option (list (string * option info)))
| Killed (g : cfg) (u : update) (v : Z) (l : option (list (string * option info))) (k : nat)
| GetVersion (g : cfg)
| Boot.
Inductive out := ORes (r : result) | OPnc (r : presult) | OClear (ok : bool) | OList (x : update_status) | OVersion (v : option Z).
Definition step (o : op) (s : st) : st * list out :=
  match o with
  | Authorize g c e tag b a p => let (s1, r) := authorize g c e tag b a p s in (s1, [ORes r])
  | Pnc g p c e m h x r => let (s1, y) := pnc g p c e m h x r s in (s1, [OPnc y])
  (* handleStartTransactionResponse (2369-2372) of a transaction that is known (C99) *)
  | StartConf tag i => (set_cache s (put tag i (cache s)), [])
  (* handleStopTransactionResponse (2404-2415): no tag is found (C99_stop_answers_update_the_cache_refuted) *)
  | StopConf _ _ => (s, [])
  (* handleClearCacheRequest (2055-2076) *)
  | ClearCache g => if c_cache g then (set_cache s [], [OClear true]) else (s, [OClear false])
  | SendList g u v l => let (x, r) := plan g u v l s in (fold_left exec x s, [OList r])
  | Killed g u v l k => (fold_left exec (firstn k (fst (plan g u v l s))) s, [])
  | GetVersion g => let (s1, v) := get_version g s in (s1, [OVersion v])
  (* init_sql (database_handler.cpp 23-30): INSERT OR IGNORE *)
  | Boot => (match version s with None => set_version s (Some 0) | Some _ => s end, [])
  end.
Fixpoint run (h : list op) (s : st) : st :=
  match h with [] => s | o :: r => run r (fst (step o s)) end.
(** The history with what was seen. *)
Fixpoint events (h : list op) (s : st) : list (op * list out) :=
  match h with [] => [] | o :: r => (o, snd (step o s)) :: events r (fst (step o s)) end.
