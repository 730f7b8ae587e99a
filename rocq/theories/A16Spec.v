(** What is said of the authorization of an OCPP 1.6 station: what the CSMS has said about a tag, as far as the messages show it. *)
From Coq Require Import String ZArith NArith List Bool Sorting.Sorted.
From Verif Require Import A16Model.
Import ListNotations.
Local Open Scope Z_scope.

(** The last thing that a list says about a tag: nothing, that it is to be removed, or its data. *)
Fixpoint last_of (tag : string) (l : list (string * option info)) : option (option info) :=
  match l with
  | [] => None
  | (t, x) :: r => match last_of tag r with Some y => Some y | None => if string_dec t tag then Some x else None end
  end.
(** What the updates that were accepted say about a tag. *)
Definition told1 (tag : string) (old : option info) (e : op * list out) : option info :=
  match e with
  | (SendList _ Full _ None, [OList UAccepted]) => None
  | (SendList _ Full _ (Some l), [OList UAccepted]) => match last_of tag l with Some x => x | None => None end
  | (SendList _ Differential _ (Some l), [OList UAccepted]) => match last_of tag l with Some x => x | None => old end
  | _ => old
  end.
Definition told (tag : string) (l : list (op * list out)) : option info := fold_left (told1 tag) l None.
(** The version of the last update that was accepted. *)
Definition vers1 (old : Z) (e : op * list out) : Z := match e with (SendList _ _ v _, [OList UAccepted]) => v | _ => old end.
Definition vers (l : list (op * list out)) : Z := fold_left vers1 l 0.
(** What the CSMS answered last about a tag, since the cache was cleared. *)
Definition word1 (tag : string) (old : option info) (e : op * list out) : option info :=
  match e with
  | (Authorize _ _ _ t _ (Conf i) _, [ORes (Res _ _ true)]) => if string_dec t tag then Some i else old
  | (StartConf t i, _) => if string_dec t tag then Some i else old
  | (ClearCache _, [OClear true]) => None
  | _ => old
  end.
Definition word (tag : string) (l : list (op * list out)) : option info := fold_left (word1 tag) l None.

(** No update of the list is interrupted. *)
Definition whole (o : op) : Prop := match o with Killed _ _ _ _ _ => False | _ => True end.
(** The clock does not go back. *)
Definition times_of (e : env) : list Z := [t_list e; t_cache e; t_valid e; t_again e].
Definition times (o : op) : list Z := match o with Authorize _ _ e _ _ _ _ => times_of e | Pnc _ _ _ e _ _ _ _ => times_of e | _ => [] end.
Definition ticking (h : list op) : Prop := Sorted Z.le (flat_map times h).

(** The date of a tag has passed. *)
Definition past (now : Z) (i : info) : Prop := exists x, i_expiry i = Some x /\ x <= now.
Definition pastb (now : Z) (i : info) : bool := match i_expiry i with Some x => x <=? now | None => false end.
Definition aged (now : Z) (i : info) : info := if pastb now i then Info Expired (i_expiry i) (i_parent i) else i.
(** Local authorization applies. *)
Definition local_ok (g : cfg) (c : conn) : bool := match c with Online => c_pre g | _ => c_off g end.
(** The tariff message that goes with a local decision; the websocket must be there. *)
Definition with_tariff (g : cfg) (c : conn) (i : info) : result :=
  match i_status i, c_price g, c with
  | Accepted, true, NoSocket => UB
  | Accepted, true, Offline => Res i (DefaultTariff true) false
  | Accepted, true, Online => Res i (DefaultTariff false) false
  | _, _, _ => Res i NoTariff false
  end.
(** The decision, [l] being what the list and [w] what the answers say about the tag. *)
Definition remote (g : cfg) (only_locally : bool) (a : answer) (price : option N) : result :=
  if only_locally then Res (Info Invalid None None) NoTariff false
  else match a with
       | Conf i => Res i (match i_status i, c_price g, price with
                          | Accepted, true, Some p => UserPrice p
                          | Accepted, true, None => DefaultTariff false
                          | _, _, _ => NoTariff
                          end) true
       | WhenOffline => Res (Info (if c_unknown g then Accepted else Invalid) None None) NoTariff true
       | _ => Res (Info Invalid None None) NoTariff true
       end.
Definition decide (g : cfg) (c : conn) (e : env) (l w : option info) (only_locally : bool) (a : answer) (price : option N) : result :=
  if local_ok g c then
    match (if c_list g && negb (f_list e) then l else None) with
    | Some i => with_tariff g c (aged (t_list e) i)
    | None =>
        if c_cache g then
          if f_cache e then UB
          else match w with
               | Some i => match i_status i with
                           | Accepted =>
                               if pastb (t_cache e) i || (match i_expiry i with Some x => x <? t_valid e | None => false end) || f_again e
                               then remote g only_locally a price else with_tariff g c (aged (t_again e) i)
                           | _ => remote g only_locally a price
                           end
               | None => remote g only_locally a price
               end
        else remote g only_locally a price
    end
  else remote g only_locally a price.
