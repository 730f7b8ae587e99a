(** Specification of base64 (RFC 4648), of basic credentials (RFC 7617) and of the addresses of the central system. *)
From Coq Require Import String Ascii ZArith List Bool.
From Verif Require Import UriModel.
Import ListNotations.
Local Open Scope Z_scope.

Definition bytes (l : list Z) : Prop := Forall (fun b => 0 <= b < 256) l.

(** The 64 characters in their order. *)
Definition digit64 (i : Z) : Z :=
  if i <? 26 then 65 + i
  else if i <? 52 then 97 + (i - 26)
  else if i <? 62 then 48 + (i - 52)
  else if i =? 62 then 43 else 47.
(** Three bytes are a number of 24 bits, written with four digits to the base 64. *)
Definition group (a b c : Z) : list Z :=
  let n := a * 65536 + b * 256 + c in
  [digit64 (n / 262144); digit64 (n / 4096 mod 64); digit64 (n / 64 mod 64); digit64 (n mod 64)].
Fixpoint rfc4648 (l : list Z) : list Z :=
  match l with
  | a :: b :: c :: q => group a b c ++ rfc4648 q
  | [] => []
  | [a] => firstn 2 (group a 0 0) ++ [61; 61]
  | [a; b] => firstn 3 (group a b 0) ++ [61]
  end.

(** The server takes what is before the first colon as the user and the rest as the password. *)
Fixpoint credentials (l : list Z) : list Z * list Z :=
  match l with
  | [] => ([], [])
  | c :: q => if c =? 58 then ([], q) else let '(u, p) := credentials q in (c :: u, p)
  end.

(** ** Addresses *)

Inductive scheme := NoScheme | Ws | Wss | Http | Https.
Definition scheme_text (s : scheme) : list Z :=
  match s with
  | NoScheme => [] | Ws => txt "ws://" | Wss => txt "wss://" | Http => txt "http://" | Https => txt "https://"
  end.
Definition scheme_fits (s : scheme) (profile : Z) : Prop :=
  match s with NoScheme => True | Ws | Http => profile = 0 \/ profile = 1 | Wss | Https => profile = 2 \/ profile = 3 end.
(** A host by name or IPv4 address, or an IPv6 address in brackets. *)
Inductive host := Name (h : list Z) | V6 (h : list Z).
Definition host_text (h : host) : list Z := match h with Name h => h | V6 h => 91 :: h ++ [93] end.
Definition host_name (h : host) : list Z := match h with Name h => h | V6 h => h end.
Definition host_ok (h : host) : Prop :=
  match h with
  | Name h => h <> [] /\ ~ In 47 h /\ ~ In 58 h /\ hd 0 h <> 91
  | V6 h => ~ In 93 h
  end.
(** A port in decimal digits, without or with leading zeros. *)
Fixpoint decimal (l : list Z) (n : Z) : option Z :=
  match l with
  | [] => Some n
  | c :: q => if (48 <=? c) && (c <=? 57) then decimal q (10 * n + (c - 48)) else None
  end.
Definition port_ok (p : option (list Z)) (secure : bool) (n : Z) : Prop :=
  match p with
  | None => n = if secure then 443 else 80
  | Some l => l <> [] /\ decimal l 0 = Some n /\ 1 <= n <= 65535
  end.
(** What follows the authority: nothing, or a slash and the rest. *)
Definition path_text (p : option (list Z)) : list Z := match p with None => [] | Some r => 47 :: r end.
Definition port_part (p : option (list Z)) : list Z := match p with None => [] | Some l => 58 :: l end.
Definition address (s : scheme) (h : host) (p r : option (list Z)) : list Z :=
  scheme_text s ++ host_text h ++ port_part p ++ path_text r.

(** The path [r] ends in the segment [id], [before] being what precedes it. *)
Definition ends_in (r id before : list Z) : Prop :=
  ~ In 47 id /\ id <> [] /\ (before = [] \/ exists b, before = b ++ [47]) /\ (r = before ++ id \/ r = before ++ id ++ [47]).
(** The path does not end in the identity and a slash. *)
Definition bare (r : option (list Z)) (id : list Z) : Prop :=
  match r with None => True | Some r => forall before, r <> before ++ id ++ [47] end.
(** The directory the identity is put into. *)
Definition closed (r : list Z) : list Z := match r with [] => [47] | _ => if last r 0 =? 47 then 47 :: r else 47 :: r ++ [47] end.
Definition directory (r : option (list Z)) (id p : list Z) : Prop :=
  match r with
  | None => p = [47]
  | Some r => (exists before, ends_in r id before /\ p = 47 :: before) \/
              ((forall before, ~ ends_in r id before) /\ p = closed r)
  end.
