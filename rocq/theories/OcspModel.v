(** The updater of the OCSP cache of an OCPP 2.x station.
    Modelled, of the repository:
    - lib/ocpp/v2/ocsp_updater.cpp (17-149), include/ocpp/v2/ocsp_updater.hpp (52-103)
    - lib/ocpp/v2/charge_point.cpp  the callback that asks the CSMS (63-74), message_callback as the only thread that reads
      messages (887-1025); lib/ocpp/v2/functional_blocks/security.cpp 255-260, provisioning.cpp 208 as callers
    Simplified: one step is what a thread does between taking and releasing the mutex or between two questions to the CSMS;
    a caller that has to wait for the mutex is seen as [OBlocked] and may try again; the steady clock is a number that is
    given with each step; update_ocsp_cache does not fail; logging is left out except for the lines that tell the beginning
    and the end of an update. *)
From Coq Require Import String ZArith List Bool.
Import ListNotations.
Local Open Scope string_scope.
Local Open Scope list_scope.
Local Open Scope Z_scope.

(** HashAlgorithmEnumType (types.hpp). *)
Inductive alg := SHA256 | SHA384 | SHA512.
(** OCSPRequestData (types.hpp 665-671) and the request made from it. *)
Record cert := Cert { c_alg : alg; c_name : string; c_key : string; c_serial : string; c_url : string }.
(** CertificateHashDataType (types.hpp 567-572). *)
Record hash := Hash { h_alg : alg; h_name : string; h_key : string; h_serial : string }.
(** How a question to the CSMS ends: a GetCertificateStatus.conf, another type of message (an error, or none in time), or a
    message that cannot be read. *)
Inductive reply := Conf (accepted : bool) (result : option string) | Unexpected | Unreadable.

(** The updater thread: none, waiting for the condition variable, waiting for the CSMS while it holds the mutex. [Dead]: the
    process was terminated. *)
Inductive thread :=
| Absent
| Waiting
| Updating (cur : cert) (rest : list cert) (got : list (hash * string))
| Dead.
(** The members of OcspUpdater (ocsp_updater.hpp 72-96). *)
Record ocsp := Ocsp { deadline : Z; running : bool; thr : thread }.
(** The two intervals (ocsp_updater.hpp 56-58). *)
Record intervals := Intervals { i_update : Z; i_retry : Z }.
Definition default_intervals : intervals := Intervals (167 * 3600) (24 * 3600).

Inductive op :=
| Start
| Stop
| Trigger (now : Z)
| Wake (now : Z) (cs : list cert)         (* wait_until returns; get_v2g_ocsp_request_data would give cs *)
| Answer (now : Z) (r : reply).           (* the question to the CSMS ends *)
Inductive out :=
| OBlocked                                (* the caller has to wait for the mutex *)
| OLogicError                             (* std::logic_error *)
| OJoined                                 (* the thread has ended, stop returns *)
| OBegin (n : nat)                        (* "Updating OCSP cache on n certificates" *)
| OAsk (c : cert)                         (* GetCertificateStatus.req *)
| OWrite (h : hash) (s : string)          (* update_ocsp_cache *)
| ODone                                   (* "Done updating OCSP cache" *)
| OFailed                                 (* "will retry" *)
| OTerminate.                             (* std::terminate *)

(** The constructor (17-26). *)
Definition init (now : Z) : ocsp := Ocsp now false Absent.

(** The callback given to the updater (charge_point.cpp 63-74): another type of message counts as Failed. *)
Definition status_of (r : reply) : option (bool * option string) :=
  match r with Conf a s => Some (a, s) | Unexpected => Some (false, None) | Unreadable => None end.
(** The strings of the request are of limited length (ocpp_types.hpp 82-89). *)
Definition fits (n : Z) (s : string) : bool := Z.of_nat (String.length s) <=? n.
Definition sendable (c : cert) : bool := fits 128 (c_key c) && fits 128 (c_name c) && fits 40 (c_serial c) && fits 2000 (c_url c).
Definition hash_of (c : cert) : hash := Hash (c_alg c) (c_name c) (c_key c) (c_serial c).

(** execute_ocsp_update (98-149) from the head of its loop on, and what updater_thread_loop does when it is over (76-94). *)
Definition ask (iv : intervals) (s : ocsp) (now : Z) (cs : list cert) (got : list (hash * string)) : ocsp * list out :=
  match cs with
  | [] => (Ocsp (now + i_update iv) (running s) Waiting, map (fun w => OWrite (fst w) (snd w)) got ++ [ODone])
  | c :: rest => if sendable c then (Ocsp (deadline s) (running s) (Updating c rest got), [OAsk c])
                 else (Ocsp (deadline s) (running s) Dead, [OTerminate])
  end.

(** start (28-34), stop (36-46), trigger_ocsp_cache_update (48-57), updater_thread_loop (59-96). *)
Definition step (iv : intervals) (s : ocsp) (o : op) : ocsp * list out :=
  match thr s with
  | Dead => (s, [])
  | Updating c rest got =>
      match o with
      | Answer now r =>
          match status_of r with
          | None => (Ocsp (deadline s) (running s) Dead, [OTerminate])
          | Some (true, Some res) => ask iv s now rest (got ++ [(hash_of c, res)])
          | Some _ => (Ocsp (now + i_retry iv) (running s) Waiting, [OFailed])
          end
      | Wake _ _ => (s, [])
      | _ => (s, [OBlocked])
      end
  | t =>
      match o with
      | Start => match t with
                 | Absent => (Ocsp (deadline s) true Waiting, [])
                 | _ => (Ocsp (deadline s) true Dead, [OTerminate])
                 end
      | Stop => (Ocsp (deadline s) false t, [])
      | Trigger now => if running s then (Ocsp now true t, []) else (s, [OLogicError])
      | Wake now cs =>
          match t with
          | Waiting =>
              if running s
              then if now <=? deadline s then (s, [])
                   else let (s', l) := ask iv s now cs [] in (s', OBegin (List.length cs) :: l)
              else (Ocsp (deadline s) false Absent, [OJoined])
          | _ => (s, [])
          end
      | Answer _ _ => (s, [])
      end
  end.

(** The station reads the messages of the CSMS in one thread and in their order: CertificateSigned.req for a V2G
    certificate that is accepted (security.cpp 255-260), answers to the updater, other messages. *)
Inductive message := MSigned | MAnswer (r : reply) | MOther (n : nat).
Record system := System { sys : ocsp; inbox : list message; handled : list message }.
Inductive sop :=
| SRead (now : Z)                          (* the reading thread goes on *)
| SWake (now : Z) (cs : list cert)         (* the updater thread wakes up *)
| STimeout (now : Z)                       (* the message queue gives up the question of the updater *)
| SArrive (m : message).                   (* a message arrives *)
Definition sys_step (iv : intervals) (s : system) (o : sop) : system * list out :=
  match o with
  | SArrive m => (System (sys s) (inbox s ++ [m]) (handled s), [])
  | SWake now cs => let (u, l) := step iv (sys s) (Wake now cs) in (System u (inbox s) (handled s), l)
  | STimeout now => let (u, l) := step iv (sys s) (Answer now Unexpected) in (System u (inbox s) (handled s), l)
  | SRead now =>
      match inbox s with
      | [] => (s, [])
      | m :: rest =>
          let (u, l) := match m with
                        | MSigned => step iv (sys s) (Trigger now)
                        | MAnswer r => step iv (sys s) (Answer now r)
                        | MOther _ => (sys s, [])
                        end in
          if existsb (fun x => match x with OBlocked => true | _ => false end) l then (s, [OBlocked])
          else (System u rest (handled s ++ [m]), l)
      end
  end.
Fixpoint sys_run (iv : intervals) (s : system) (os : list sop) : system * list out :=
  match os with
  | [] => (s, [])
  | o :: os => let (s', l) := sys_step iv s o in let (s'', l') := sys_run iv s' os in (s'', l ++ l')
  end.
