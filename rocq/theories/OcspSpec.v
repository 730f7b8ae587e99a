(** What is expected of the updater of the OCSP cache, told from what has been seen so far. *)
From Coq Require Import String ZArith List Bool.
From Verif Require Import OcspModel.
Import ListNotations.
Local Open Scope list_scope.
Local Open Scope Z_scope.

(** What has been seen: what was done and what came of it, the latest first. *)
Definition history := list (op * list out).

(** It has been seen that the process was terminated. *)
Definition terminated (h : history) : Prop := exists e, In e h /\ In OTerminate (snd e).

(** The time at which the next update is due, [t0] being the time of construction: the time of a trigger that came through,
    an interval after a success, a retry interval after a failure. *)
Inductive due (t0 : Z) (iv : intervals) : history -> Z -> Prop :=
| due_new : due t0 iv [] t0
| due_trigger now h : due t0 iv ((Trigger now, []) :: h) now
| due_done_at_once now cs l h : In ODone l -> due t0 iv ((Wake now cs, l) :: h) (now + i_update iv)
| due_done now r l h : In ODone l -> due t0 iv ((Answer now r, l) :: h) (now + i_update iv)
| due_failed now r l h : In OFailed l -> due t0 iv ((Answer now r, l) :: h) (now + i_retry iv)
| due_same o l h t : due t0 iv h t -> ~ In ODone l -> ~ In OFailed l -> (forall now, (o, l) <> (Trigger now, [])) -> due t0 iv ((o, l) :: h) t.

(** The updater has been started and not been stopped since. *)
Inductive on : history -> Prop :=
| on_start l h : ~ In OBlocked l -> on ((Start, l) :: h)
| on_same o l h : on h -> o <> Stop \/ In OBlocked l -> on ((o, l) :: h).

(** An update is under way for the certificates, with the replies that have come, in their order. *)
Inductive episode : history -> list cert -> list reply -> Prop :=
| ep_begin now cs n l h : In (OBegin n) l -> ~ In ODone l -> ~ In OTerminate l -> episode ((Wake now cs, l) :: h) cs []
| ep_answer now r l h cs rs : episode h cs rs -> ~ In ODone l -> ~ In OFailed l -> ~ In OTerminate l -> episode ((Answer now r, l) :: h) cs (rs ++ [r])
| ep_same o l h cs rs : episode h cs rs -> (forall now r, o <> Answer now r) -> episode ((o, l) :: h) cs rs.

(** The history of a run. *)
Inductive happened (t0 : Z) (iv : intervals) : ocsp -> history -> Prop :=
| hap_new : happened t0 iv (init t0) []
| hap_step s h o s' l : happened t0 iv s h -> step iv s o = (s', l) -> happened t0 iv s' ((o, l) :: h).

(** A certificate whose data can be sent. *)
Definition short (c : cert) : Prop :=
  Z.of_nat (String.length (c_name c)) <= 128 /\ Z.of_nat (String.length (c_key c)) <= 128 /\
  Z.of_nat (String.length (c_serial c)) <= 40 /\ Z.of_nat (String.length (c_url c)) <= 2000.

(** What is to be stored for a certificate. *)
Inductive stored : list cert -> list reply -> list out -> Prop :=
| st_nil : stored [] [] []
| st_cons c cs res rs l : stored cs rs l ->
    stored (c :: cs) (Conf true (Some res) :: rs) (OWrite (Hash (c_alg c) (c_name c) (c_key c) (c_serial c)) res :: l).
