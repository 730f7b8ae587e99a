(** OCPP 1.6 with California pricing: SetUserPrice and the authorizations that wait for it (lib/ocpp/v16/charge_point_impl.cpp).
    Model only.

    An authorization is a thread between the points where it waits: for user_price_map_mutex, for Authorize.conf, for a price. Messages
    of the CSMS are received by one thread, which waits for the mutex too. Id tokens, sessions and texts are numbers. The authorization
    from the local list and the cache (A16Model.v) comes before and is left out, as are the other fields of idTagInfo. The configuration
    does not change. What JSON gives is told by an oracle. *)
From Coq Require Import ZArith List Bool.
Import ListNotations.
Local Open Scope list_scope.
Local Open Scope Z_scope.

(** [threads]: threads that authorize, numbered from 1; [pricing]: CustomDisplayCostAndPriceEnabled; [multi]:
    CustomMultiLanguageMessagesEnabled; [unknown]: AllowOfflineTxForUnknownId. *)
Record env := { threads : nat; pricing : bool; callback : bool; multi : bool; language : option Z; unknown : bool }.

(** TariffMessage (include/ocpp/common/types.hpp): for an id token, or for a session with its transaction id. Texts have a language. *)
Inductive ident := ByToken (i : Z) | BySession (s : Z) (tx : option Z).
Record tariff := { who : ident; texts : list (Z * option Z) }.

(** SetUserPrice: no data or none that can be read or no idToken; priceText that is none ([Some None]) or absent; priceTextExtra that is
    absent or no array ([None]), or with an element that cannot be read ([Some None]). *)
Inductive message := Unreadable | Price (i : Z) (text : option (option Z)) (extra : option (option (list (Z * option Z)))).

(** A transaction: id tag, session and transaction id. *)
Record transaction := { tag : Z; session : Z; txid : option Z }.
(** TransactionHandler::get_transaction_from_id_tag (lib/ocpp/v16/transaction.cpp:216-229). *)
Definition transaction_of (active stopped : list transaction) (i : Z) : option transaction :=
  match find (fun t => tag t =? i) active with Some t => Some t | None => find (fun t => tag t =? i) stopped end.

(** AuthorizationStatus. *)
Inductive status := Accepted | Blocked | Expired | Invalid | ConcurrentTx.
Definition is_accepted (s : status) : bool := match s with Accepted => true | _ => false end.
(** The tariff in EnhancedIdTagInfo. *)
Inductive shown := NoTariff | Default | User (x : tariff).

Inductive out :=
| OBegin (t i : Z)                          (* authorize_id_token is called *)
| OAuthorize (t i : Z)                      (* Authorize.req *)
| OWaits (t i : Z)                          (* "waiting for set user price" *)
| OResult (t : Z) (s : status) (x : shown)  (* authorize_id_token returns *)
| OHeld (i : Z) (x : tariff)                (* the receiving thread waits for the mutex *)
| OTariff (i : Z) (x : tariff)              (* tariff_message_callback *)
| OReply (a : Z)                            (* DataTransfer.conf: what the callback answered *)
| ORejected
| OCallError
| OUndefined                                (* a condition variable is destroyed while a thread waits for it *)
| ONot.                                     (* this cannot happen now *)

Inductive phase := Idle | Wants (i : Z) | Sent (i : Z) | Waiting (i : Z).
(** [holder]: of user_price_map_mutex; [cvs]: user_price_cvs; [tariffs]: tariff_messages_by_id_token; [stuck]: the price with which the
    receiving thread waits for the mutex, and what the callback will answer. *)
Record state := { ph : Z -> phase; holder : option Z; cvs : Z -> bool; tariffs : Z -> option tariff; stuck : option (Z * tariff * Z); dead : bool }.

Definition set {A} (f : Z -> A) (k : Z) (v : A) : Z -> A := fun x => if x =? k then v else f x.

(** handle_set_user_price, 3276-3306: the tariff that is made. *)
Definition make (e : env) (active stopped : list transaction) (i : Z) (text : option (option Z)) (extra : option (option (list (Z * option Z)))) : option tariff :=
  let w := match transaction_of active stopped i with None => ByToken i | Some t => BySession (session t) (txid t) end in
  match (match text with None => Some [] | Some None => None | Some (Some m) => Some [(m, language e)] end) with
  | None => None
  | Some l =>
    match (if multi e then match extra with None => Some [] | Some x => x end else Some []) with
    | None => None
    | Some l' => Some {| who := w; texts := l ++ l' |}
    end
  end.
(** 3309-3317, with the mutex. *)
Definition deliver (s : state) (i : Z) (x : tariff) (a : Z) : state * list out :=
  ({| ph := ph s; holder := holder s; cvs := cvs s; tariffs := if cvs s i then set (tariffs s) i (Some x) else tariffs s; stuck := None; dead := dead s |},
   [OTariff i x; OReply a]).
(** handle_set_user_price, 3238-3318. *)
Definition set_user_price (e : env) (s : state) (m : option message) (active stopped : list transaction) (a : Z) : state * list out :=
  match stuck s with
  | Some _ => (s, [ONot])
  | None =>
    match m with
    | None => (s, [ORejected])
    | Some m =>
      if negb (callback e) then (s, [ORejected])
      else match m with
      | Unreadable => (s, [ORejected])
      | Price i text extra =>
        match make e active stopped i text extra with
        | None => (s, [OCallError])
        | Some x =>
          match holder s with
          | None => deliver s i x a
          | Some _ => ({| ph := ph s; holder := holder s; cvs := cvs s; tariffs := tariffs s; stuck := Some (i, x, a); dead := dead s |}, [OHeld i x])
          end
        end
      end
    end
  end.

(** authorize_id_token, 3480 and 3549-3556. *)
Definition begin (s : state) (t i : Z) : state * list out :=
  match ph s t with
  | Idle => ({| ph := set (ph s) t (Wants i); holder := holder s; cvs := cvs s; tariffs := tariffs s; stuck := stuck s; dead := dead s |}, [OBegin t i])
  | _ => (s, [ONot])
  end.
Definition lock (s : state) (t : Z) : state * list out :=
  match ph s t, holder s with
  | Wants i, None => ({| ph := set (ph s) t (Sent i); holder := Some t; cvs := cvs s; tariffs := set (tariffs s) i None; stuck := stuck s; dead := dead s |}, [OAuthorize t i])
  | _, _ => (s, [ONot])
  end.
(** Returning from Authorize.conf or its absence gives the mutex back. *)
Definition finish (s : state) (t : Z) (r : status) : state * list out :=
  ({| ph := set (ph s) t Idle; holder := None; cvs := cvs s; tariffs := tariffs s; stuck := stuck s; dead := dead s |}, [OResult t r NoTariff]).
(** 3558-3576: Authorize.conf comes through the receiving thread; [db]: it could be stored in the cache. *)
Definition conf (e : env) (s : state) (t : Z) (r : status) (db : bool) : state * list out :=
  match ph s t, stuck s with
  | Sent i, None =>
      if negb db then finish s t Invalid
      else if pricing e && is_accepted r then
        ({| ph := set (ph s) t (Waiting i); holder := None; cvs := set (cvs s) i true; tariffs := tariffs s; stuck := stuck s; dead := dead s |}, [OWaits t i])
      else finish s t r
  | _, _ => (s, [ONot])
  end.
(** 3558-3562 and 3603-3611: no answer in time, offline, or a CALLERROR, which comes through the receiving thread. *)
Inductive failure := TimedOut | Offline | Error.
Definition fails (e : env) (s : state) (t : Z) (w : failure) : state * list out :=
  match ph s t with
  | Sent _ =>
      match w, stuck s with
      | TimedOut, _ => finish s t Invalid
      | Offline, _ => finish s t (if unknown e then Accepted else Invalid)
      | Error, None => finish s t Invalid
      | Error, Some _ => (s, [ONot])
      end
  | _ => (s, [ONot])
  end.
(** Does another thread wait for a price for [i]? *)
Definition others (e : env) (s : state) (t i : Z) : bool :=
  existsb (fun u => negb (u =? t) && match ph s u with Waiting j => j =? i | _ => false end) (map Z.of_nat (seq 1 (threads e))).
(** 3576-3596: the end of waiting, with the mutex. *)
Definition wake (e : env) (s : state) (t : Z) (timeout : bool) : state * list out :=
  match ph s t, holder s with
  | Waiting i, None =>
      match (match tariffs s i with Some x => Some (User x) | None => if timeout then Some Default else None end) with
      | None => (s, [ONot])
      | Some r =>
        if others e s t i then
          ({| ph := ph s; holder := holder s; cvs := cvs s; tariffs := tariffs s; stuck := stuck s; dead := true |}, [OUndefined])
        else
          ({| ph := set (ph s) t Idle; holder := None; cvs := set (cvs s) i false; tariffs := set (tariffs s) i None; stuck := stuck s; dead := dead s |}, [OResult t Accepted r])
      end
  | _, _ => (s, [ONot])
  end.
(** The receiving thread gets the mutex. *)
Definition go (s : state) : state * list out :=
  match stuck s, holder s with
  | Some (i, x, a), None => deliver s i x a
  | _, _ => (s, [ONot])
  end.

Inductive op :=
| Begin (t i : Z) | Lock (t : Z) | Conf (t : Z) (r : status) (db : bool) | Fails (t : Z) (w : failure) | Wake (t : Z) (timeout : bool)
| SetPrice (m : option message) (active stopped : list transaction) (a : Z) | Go.
Definition step (e : env) (s : state) (o : op) : state * list out :=
  if dead s then (s, [])
  else match o with
  | Begin t i => if (1 <=? t) && (t <=? Z.of_nat (threads e)) then begin s t i else (s, [ONot])
  | Lock t => lock s t
  | Conf t r db => conf e s t r db
  | Fails t w => fails e s t w
  | Wake t b => wake e s t b
  | SetPrice m act sto a => set_user_price e s m act sto a
  | Go => go s
  end.
Definition init : state := {| ph := fun _ => Idle; holder := None; cvs := fun _ => false; tariffs := fun _ => None; stuck := None; dead := false |}.
