(** The address and the credentials of the central system: Uri::parse_and_validate, the class uri it uses, base64 and the
    Authorization header. Text is the list of its bytes. *)
From Coq Require Import String Ascii ZArith List Bool.
Import ListNotations.
Local Open Scope Z_scope.

(** A literal. *)
Fixpoint txt (s : string) : list Z :=
  match s with EmptyString => [] | String c q => Z.of_N (N_of_ascii c) :: txt q end.
(** std::string::operator==. *)
Fixpoint text_eqb (a b : list Z) : bool :=
  match a, b with
  | [], [] => true
  | x :: p, y :: q => (x =? y) && text_eqb p q
  | _, _ => false
  end.
(** std::equal(it, it + n, literal), after the length was checked. *)
Fixpoint starts_with (p s : list Z) : bool :=
  match p, s with
  | [], _ => true
  | x :: p, y :: s => (x =? y) && starts_with p s
  | _ :: _, [] => false
  end.
(** uri.find(p) != npos. *)
Fixpoint contains (p s : list Z) : bool :=
  starts_with p s || match s with [] => false | _ :: q => contains p q end.

(** ** base64 (3rd_party/websocketpp_utils/base64.hpp) *)

(** base64_chars (43-45). *)
Definition base64_chars : list Z := txt "ABCDEFGHIJKLMNOPQRSTUVWXYZabcdefghijklmnopqrstuvwxyz0123456789+/".
(** is_base64 (52-57). *)
Definition is_base64 (c : Z) : bool :=
  (c =? 43) || ((47 <=? c) && (c <=? 57)) || ((65 <=? c) && (c <=? 90)) || ((97 <=? c) && (c <=? 122)).
(** base64_chars[i]; beyond the end operator[] is undefined, written as -1. *)
Definition char_at (i : Z) : Z := nth (Z.to_nat i) base64_chars (-1).
(** Conversion to unsigned char. *)
Definition u8 (x : Z) : Z := x mod 256.
(** The four indices of three bytes (75-78, 92-95). *)
Definition four (a b c : Z) : list Z :=
  [u8 (Z.shiftr (Z.land a 252) 2);
   u8 (Z.shiftl (Z.land a 3) 4 + Z.shiftr (Z.land b 240) 4);
   u8 (Z.shiftl (Z.land b 15) 2 + Z.shiftr (Z.land c 192) 6);
   u8 (Z.land c 63)].
(** base64_encode (65-107): groups of three; a last group of i bytes gives i + 1 characters and 3 - i equal signs. *)
Fixpoint base64_encode (l : list Z) : list Z :=
  match l with
  | a :: b :: c :: q => map char_at (four a b c) ++ base64_encode q
  | [] => []
  | [a] => map char_at (firstn 2 (four a 0 0)) ++ [61; 61]
  | [a; b] => map char_at (firstn 3 (four a b 0)) ++ [61]
  end.
(** static_cast<unsigned char>(base64_chars.find(c)); npos becomes 255. *)
Fixpoint position (c : Z) (l : list Z) (i : Z) : option Z :=
  match l with [] => None | x :: q => if x =? c then Some i else position c q (i + 1) end.
Definition index_of (c : Z) : Z := match position c base64_chars 0 with Some i => i | None => 255 end.
(** The three bytes of four indices (140-142, 160-162). *)
Definition three (a b c d : Z) : list Z :=
  [u8 (Z.shiftl a 2 + Z.shiftr (Z.land b 48) 4);
   u8 (Z.shiftl (Z.land b 15) 4 + Z.shiftr (Z.land c 60) 2);
   u8 (Z.shiftl (Z.land c 3) 6 + d)].
(** The characters the loop reads (132). *)
Fixpoint readable (l : list Z) : list Z :=
  match l with
  | [] => []
  | c :: q => if negb (c =? 61) && is_base64 c then c :: readable q else []
  end.
(** What is made of them (133-167): a last group of i characters gives i - 1 bytes, the missing ones being the character
    0, which is not found. *)
Fixpoint decode_groups (l : list Z) : list Z :=
  match l with
  | a :: b :: c :: d :: q => three (index_of a) (index_of b) (index_of c) (index_of d) ++ decode_groups q
  | [] => []
  | [a] => []
  | [a; b] => firstn 1 (three (index_of a) (index_of b) (index_of 0) (index_of 0))
  | [a; b; c] => firstn 2 (three (index_of a) (index_of b) (index_of c) (index_of 0))
  end.
(** base64_decode (123-170). *)
Definition base64_decode (l : list Z) : list Z := decode_groups (readable l).

(** WebsocketBase::getAuthorizationHeader (websocket_base.cpp 113-128). *)
Definition authorization_header (id : list Z) (key : option (list Z)) : option (list Z) :=
  match key with
  | None => None
  | Some k => Some (txt "Basic " ++ base64_encode (id ++ txt ":" ++ k))
  end.
(** The header sent with the connection (websocket_libwebsockets.cpp 1260-1273): in the two profiles with basic
    authentication. *)
Definition header_sent (profile : Z) (id : list Z) (key : option (list Z)) : option (list Z) :=
  if (profile =? 1) || (profile =? 2) then authorization_header id key else None.

(** ** The class uri (3rd_party/websocketpp_utils/uri.hpp) *)

(** How a call ends: a result, std::invalid_argument, or std::out_of_range. *)
Inductive result (A : Type) := Ok (a : A) | InvalidArgument | OutOfRange.
Arguments Ok {A} _. Arguments InvalidArgument {A}. Arguments OutOfRange {A}.

Record uri := U { u_secure : bool; u_scheme : list Z; u_host : list Z; u_port : Z; u_resource : list Z; u_valid : bool }.

(** std::isspace in the "C" locale, and std::isdigit. *)
Definition is_space (c : Z) : bool := (c =? 32) || ((9 <=? c) && (c <=? 13)).
Definition is_digit (c : Z) : bool := (48 <=? c) && (c <=? 57).
Fixpoint skip_spaces (s : list Z) : list Z :=
  match s with c :: q => if is_space c then skip_spaces q else s | [] => [] end.
(** The digits at the start, as a number, if there are any. *)
Fixpoint number (s : list Z) (acc : option Z) : option Z :=
  match s with
  | c :: q => if is_digit c then number q (Some (10 * match acc with Some n => n | None => 0 end + (c - 48))) else acc
  | [] => acc
  end.
(** std::stoul: what follows the digits is ignored; a sign negates modulo 2^64. *)
Definition stoul (s : list Z) : result Z :=
  let s1 := skip_spaces s in
  let '(neg, s2) := match s1 with
                    | c :: q => if c =? 45 then (true, q) else if c =? 43 then (false, q) else (false, s1)
                    | [] => (false, [])
                    end in
  match number s2 None with
  | None => InvalidArgument
  | Some n => if 18446744073709551615 <? n then OutOfRange
              else Ok (if neg then (- n) mod 18446744073709551616 else n)
  end.
(** get_port_from_string (284-301): the port and m_valid. *)
Definition port_from_string (secure : bool) (port : list Z) : result (Z * bool) :=
  match port with
  | [] => Ok (if secure then 443 else 80, true)
  | _ => match stoul port with
         | Ok n => Ok (n mod 65536, negb (65535 <? n) && negb (n =? 0))
         | InvalidArgument => InvalidArgument
         | OutOfRange => OutOfRange
         end
  end.
(** Up to the first of ':' and '/' (117-134): the host, the character that ended it, the rest. *)
Fixpoint read_host (s : list Z) : list Z * option Z * list Z :=
  match s with
  | [] => ([], None, [])
  | c :: q => if (c =? 47) || (c =? 58) then ([], Some c, q)
              else let '(h, e, r) := read_host q in (c :: h, e, r)
  end.
(** Up to the first occurrence of [c] (83-100, 137-153). *)
Fixpoint read_to (c : Z) (s : list Z) : list Z * bool * list Z :=
  match s with
  | [] => ([], false, [])
  | x :: q => if x =? c then ([], true, q) else let '(h, e, r) := read_to c q in (x :: h, e, r)
  end.
(** The scheme (57-75): recognised only when something follows. *)
Definition read_scheme (s : list Z) : option (bool * list Z * list Z) :=
  let n := Z.of_nat (length s) in
  if (7 <=? n) && starts_with (txt "wss://") s then Some (true, txt "wss", skipn 6 s)
  else if (6 <=? n) && starts_with (txt "ws://") s then Some (false, txt "ws", skipn 5 s)
  else if (8 <=? n) && starts_with (txt "http://") s then Some (false, txt "http", skipn 7 s)
  else if (9 <=? n) && starts_with (txt "https://") s then Some (true, txt "https", skipn 8 s)
  else None.
(** The host (77-135), and the port text if there is a port; None when the constructor returns early, which leaves m_valid
    false. The second component tells that a port follows, the third is what is left. *)
Definition read_authority (s : list Z) : option (list Z * bool * list Z) :=
  match s with
  | c :: q =>
      if c =? 91 then
        let '(h, closed, r) := read_to 93 q in
        if negb closed then None
        else match r with
             | [] => Some (h, false, [])
             | d :: r1 => if d =? 47 then Some (h, false, r1) else if d =? 58 then Some (h, true, r1) else None
             end
      else let '(h, e, r) := read_host s in Some (h, match e with Some d => d =? 58 | None => false end, r)
  | [] => Some ([], false, [])
  end.
(** The constructor (48-159). *)
Definition parse (s : list Z) : result uri :=
  match read_scheme s with
  | None => Ok (U false [] [] 0 [] false)
  | Some (secure, scheme, s1) =>
      match read_authority s1 with
      | None => Ok (U secure scheme [] 0 [] false)
      | Some (h, has_port, s2) =>
          let '(port, s3) := if has_port then let '(p, _, r) := read_to 47 s2 in (p, r) else ([], s2) in
          match port_from_string secure port with
          | Ok (p, valid) => Ok (U secure scheme h p (47 :: s3) valid)
          | InvalidArgument => InvalidArgument
          | OutOfRange => OutOfRange
          end
      end
  end.

(** ** Uri (websocket_uri.cpp, websocket_uri.hpp) *)

(** rfind('/') and what is before and after it: the path up to and including the last slash, and the rest. *)
Fixpoint split_last (p : list Z) : list Z * list Z :=
  match p with
  | [] => ([], [])
  | c :: q => let '(a, b) := split_last q in
              match a with
              | [] => if c =? 47 then ([c], b) else ([], c :: b)
              | _ => (c :: a, b)
              end
  end.
(** path_split_last_segment (websocket_uri.cpp 16-36). The path starts with a slash. When it ends with one as well, the
    position is moved to the character before that slash, not to the slash before it: the last segment is then empty. *)
Definition path_split_last_segment (p : list Z) : list Z * list Z :=
  if text_eqb p [47] then ([47], [])
  else let '(a, b) := split_last p in
       match b with [] => (removelast p, []) | _ => (a, b) end.

Record curi := C { c_secure : bool; c_host : list Z; c_port : Z; c_path : list Z; c_id : list Z }.
(** path.back() != '/' (95-97). *)
Definition with_slash (p : list Z) : list Z := if last p 0 =? 47 then p else p ++ [47].
(** Uri::parse_and_validate (39-100). *)
Definition parse_and_validate (s id : list Z) (profile : Z) : result curi :=
  match s, id with
  | [], _ => InvalidArgument
  | _, [] => InvalidArgument
  | _, _ =>
      let added := negb (contains (txt "://") s) in
      let s1 := if added then (if 2 <=? profile then txt "wss://" else txt "ws://") ++ s else s in
      match parse s1 with
      | InvalidArgument => InvalidArgument
      | OutOfRange => OutOfRange
      | Ok u =>
          if negb (u_valid u) then InvalidArgument
          else if negb added &&
                  (if (profile =? 0) || (profile =? 1) then u_secure u
                   else if (profile =? 2) || (profile =? 3) then negb (u_secure u) else true)
          then InvalidArgument
          else
            let '(without, base) := path_split_last_segment (u_resource u) in
            let p := if text_eqb base id then without else u_resource u in
            Ok (C (u_secure u) (u_host u) (u_port u) (with_slash p) id)
      end
  end.
(** What the connection is made to (websocket_libwebsockets.cpp 737-756): address, port and path of the request. *)
Definition target (c : curi) : list Z * Z * list Z := (c_host c, c_port c, c_path c ++ c_id c).

(** std::to_string of a port. *)
Fixpoint digits (fuel : nat) (n : Z) : list Z :=
  match fuel with
  | O => []
  | S f => (if n <? 10 then [] else digits f (n / 10)) ++ [48 + n mod 10]
  end.
Definition port_text (n : Z) : list Z := digits 5 n.
(** Uri::string and uri::str (websocket_uri.hpp 54-62, uri.hpp 161-168 and 255-266). *)
Definition uri_string (c : curi) : list Z :=
  (if c_secure c then txt "wss" else txt "ws") ++ txt "://" ++ c_host c ++
  (if c_port c =? (if c_secure c then 443 else 80) then [] else txt ":" ++ port_text (c_port c)) ++
  (c_path c ++ c_id c).
