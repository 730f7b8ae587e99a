(** What the connectivity manager should do, without its helpers. *)
From Coq Require Import ZArith List Bool String Ascii.
From Verif Require Import StrModel StrSpec JsonModel DmSpec ConnModel.
Import ListNotations.
Local Open Scope string_scope.
Local Open Scope Z_scope.

(** [p] is the profile of [slot]: the first one in the list. *)
Definition configured (l : list profile) (slot : Z) (p : profile) : Prop :=
  exists a b, l = (a ++ p :: b)%list /\ p_slot p = slot /\ Forall (fun q => p_slot q <> slot) a.

(** ... and the station may use it. *)
Definition offered (s : cm) (slot : Z) (p : profile) : Prop :=
  configured (cache s) slot p /\ (allow_zero_level s = true \/ p_level p <> 0).

(** A freshly started manager: some contents of the device model with sensible security levels. *)
Definition fresh (s : cm) : Prop :=
  exists level ps pr active az id, Forall (fun p => 0 <= p_level p) ps /\ construct level ps pr active az id = Ret s.

(** Connections are confirmed (a BootNotification is answered) only once one was opened, and the security levels of
    new profiles are not negative. *)
Fixpoint orderly (s : cm) (l : list op) : Prop :=
  match l with
  | [] => True
  | o :: l' =>
      match o with OConfirm _ => ws s = true | OSetProfile p _ _ => 0 <= p_level p | _ => True end /\
      (forall x, step s o = Ret x -> orderly (fst x) l')
  end.

Definition starts (ev : list event) (p : profile) : Prop := In (Start p) ev.
Definition no_start (ev : list event) : Prop := forall p, ~ starts ev p.

Definition is_confirm (o : op) : Prop := match o with OConfirm _ => True | _ => False end.
Definition is_reboot (o : op) : Prop := match o with OReboot => True | _ => False end.
Definition is_connect (o : op) : Prop := match o with OConnect _ _ => True | _ => False end.

(** A row of failing attempts: each time the timer expires with the environment [e]; if that starts a connection, it
    ends for the reason [r]. *)
Fixpoint failing (s : cm) (l : list (env * close_reason)) : result (cm * list event) :=
  match l with
  | [] => Ret (s, [])
  | (e, r) :: l' =>
      match step s (OTimer e) with
      | Throws w => Throws w
      | Ret (s1, ev) =>
          match (if existsb (fun x => match x with Start _ => true | _ => false end) ev then step s1 (OStopped r) else Ret (s1, [])) with
          | Throws w => Throws w
          | Ret (s2, ev2) =>
              match failing s2 l' with Throws w => Throws w | Ret (s3, ev3) => Ret (s3, (ev ++ ev2 ++ ev3)%list) end
          end
      end
  end.

(** What such a row shows: one slot after the other is tried, and exactly the usable ones are started. *)
Inductive round (s : cm) : nat -> list (env * close_reason) -> list event -> Prop :=
| round_end k : round s k [] []
| round_next k e r l ev slot p :
    slot = nth (Nat.modulo k (List.length (slots s))) (slots s) 0 -> offered s slot p -> round s (S k) l ev ->
    round s k ((e, r) :: l) (Tried slot :: (if e_url e p && e_cfg e p then [Start p] else []) ++ ev).

(** The slot with the highest priority whose profile is good enough for the recorded level. *)
Definition best (s : cm) (slot : Z) (p : profile) : Prop :=
  exists a b, slots s = (a ++ slot :: b)%list /\ offered s slot p /\ dm_level s <= p_level p /\
    (forall x q, In x a -> offered s x q -> p_level q < dm_level s).

Fixpoint tried (ev : list event) : list Z :=
  match ev with [] => [] | Tried x :: ev' => x :: tried ev' | _ :: ev' => tried ev' end.

(** The station tries to be connected: a timer is running after slot [x] failed. *)
Inductive waiting (s : cm) (x : Z) : Prop :=
| waiting_failed : timer s = Some (TryNextOf x) -> waiting s x
| waiting_closed r : timer s = Some (Reconnect r) -> r <> ServiceRestart -> nth_error (slots s) (prio s) = Some x -> waiting s x.

(** A well-configured station in operation. *)
Record in_order (s : cm) : Prop := mkInOrder {
  io_wants : wants s = true;
  io_id : ~ In ":"%char (list_ascii_of_string (station_id s));
  io_level : last_level s = dm_level s;
  io_nodup : NoDup (slots s);
  io_profiles : forall x, In x (slots s) -> exists p, offered s x p;
  io_prio : (prio s < List.length (slots s))%nat }.

(** All slots have usable profiles of the same level. *)
Definition uniform (level : Z) (s : cm) : Prop :=
  slots s <> [] /\ dm_level s <= level /\ (forall x, In x (slots s) -> exists p, offered s x p /\ p_level p = level).

(** Operations within one run of the process that do not parse a text from the CSMS. *)
Definition internal (o : op) : Prop := match o with OReboot | OSetPriority _ _ _ _ => False | _ => True end.
