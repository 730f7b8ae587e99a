(** What is said about variables and the settings that follow them. *)
From Coq Require Import ZArith List.
From Verif Require Import VcModel.
Import ListNotations.
Local Open Scope Z_scope.

(** A SetVariables.req names each variable once. *)
Definition once (e : event) : Prop := match e with Set_ l => NoDup (map i_var l) | _ => True end.

(** An entry that is accepted for the value in use. *)
Definition takes (i : item) : Prop := i_ok i = true /\ i_actual i = true.

(** The values after a request: that of the last entry that was accepted for it, else the old one. *)
Inductive Stored (old : var -> Z) : list item -> (var -> Z) -> Prop :=
| stored_nil f : (forall v, f v = old v) -> Stored old [] f
| stored_take l i f g : Stored old l g -> takes i -> f (i_var i) = i_value i -> (forall v, v <> i_var i -> f v = g v) -> Stored old (l ++ [i]) f
| stored_skip l i f g : Stored old l g -> ~ takes i -> (forall v, f v = g v) -> Stored old (l ++ [i]) f.

(** The timer of the aligned values for a configured interval. *)
Definition timer_of (v : Z) (t : option Z) : Prop := (v > 0 -> t = Some v) /\ (v <= 0 -> t = None).

(** The queue and the websocket work with the values that GetVariables shows. The key counts for the profiles 1 and 2. *)
Record follows (s : station) : Prop := Follows {
  f_attempts : q_attempts s = value s Attempts;
  f_interval : q_interval s = value s AttemptInterval;
  f_timeout : q_timeout s = value s Timeout;
  f_range : forall o, socket s = Some o -> o_range o = value s RandomRange;
  f_repeat : forall o, socket s = Some o -> o_repeat o = value s RepeatTimes;
  f_wait : forall o, socket s = Some o -> o_wait o = value s WaitMinimum;
  f_tries : forall o, socket s = Some o -> o_attempts o = value s ProfileAttempts;
  f_ping : forall o, socket s = Some o -> o_ping o = value s PingInterval;
  f_key : forall o, socket s = Some o -> profile s < 3 -> o_key o = value s Password
}.
(** The timers do, from the first accepted BootNotification on. *)
Definition was_registered (l : list event) : Prop := exists n, In (Booted n) l.
