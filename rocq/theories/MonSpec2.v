(** What the CSMS learns of a threshold while the station is online, and when periodic monitors report: specification,
    independent of [MonModel]'s functions. *)
From Coq Require Import ZArith List Bool.
From Verif Require Import MonModel MonSpec.
Import ListNotations.
Local Open Scope Z_scope.

(** Is the value past the threshold of the monitor? *)
Definition past (m : monitor) (x : Z) : Prop :=
  match n_type m with Upper => x > n_value m | Lower => x < n_value m | _ => False end.

(** Calls while the station is online, monitoring enabled and the monitor admitted and not changed. *)
Definition online (m : monitor) (v : env) : Prop := v_enabled v = true /\ v_offline v = false /\ admitted v m = true.
Definition plain (m : monitor) (var : Z) (wo : bool) (o : op) : Prop :=
  match o with
  | OChange ms x d _ w _ _ => forall k, In k ms -> n_id k = n_id m -> k = m /\ x = var /\ d = Number /\ w = wo
  | OUpdate k _ _ _ _ => n_id k <> n_id m
  | OTimer v => online m v /\ configured v (n_id m) = None
  | OTriggered v => online m v
  end.
Definition is_pass (o : op) : bool := match o with OTimer _ | OTriggered _ => true | _ => false end.
(** The value a call reports for the monitor. *)
Definition observed (m : monitor) (o : op) : option Z :=
  match o with
  | OChange ms _ _ true _ _ b => if existsb (fun k => n_id k =? n_id m) ms then Some b else None
  | _ => None
  end.
(** Values since the last pass (newest first), and the last value before it. *)
Fixpoint history (m : monitor) (known : option Z) (recent : list Z) (h : list op) : option Z * list Z :=
  match h with
  | [] => (known, recent)
  | o :: q =>
      match observed m o with
      | Some x => history m known (x :: recent) q
      | None => if is_pass o then history m (match recent with x :: _ => Some x | [] => known end) [] q
                else history m known recent q
      end
  end.
(** Normal as long as nothing is known. *)
Definition alarming (m : monitor) (x : option Z) : Prop := match x with Some z => past m z | None => False end.
(** Among these values the state of the alarm changes. *)
Fixpoint changes (m : monitor) (before : option Z) (l : list Z) : Prop :=
  match l with
  | [] => False
  | x :: q => changes m before q \/ ~ (past m x <-> alarming m (match q with y :: _ => Some y | [] => before end))
  end.
Definition newest (s : option Z * list Z) : option Z := match snd s with x :: _ => Some x | [] => fst s end.

(** What the CSMS takes the state of the monitor to be: what the last report said. *)
Definition reports (l : list seen) : list report := flat_map (fun s => match s with Notice r => r | NewRef _ => [] end) l.
Definition believed (l : list seen) : Prop :=
  match rev (reports l) with r :: _ => r_clear r = Some false | [] => False end.

(** * Periodic monitors *)
(** Timer passes with the monitor in the device model. *)
Definition tick (m : monitor) (var : Z) (o : op) : Prop :=
  match o with
  | OTimer v => online m v /\ configured v (n_id m) = Some (var, m) /\ v_value v var <> None
  | OTriggered _ => False
  | OUpdate k _ _ _ _ => n_id k <> n_id m
  | OChange ms _ _ _ _ _ _ => forall k, In k ms -> n_id k <> n_id m
  end.
Definition steady (o : op) : list Z := match o with OTimer v => [v_steady v] | _ => [] end.
(** The times of the passes. *)
Definition ticks (h : list op) : list Z := flat_map steady h.
(** Of these times, those at which more than [gap] has gone by since the last one chosen. *)
Fixpoint spaced (gap last : Z) (l : list Z) : list Z :=
  match l with
  | [] => []
  | t :: q => if last + gap <? t then t :: spaced gap t q else spaced gap last q
  end.

(** * Sane settings of periodic monitors: those that are or appear *)
Definition sane (v : env) (h : list op) : Prop :=
  (forall var m, In (var, m) (flat_map (fun p => map (fun m => (fst p, m)) (snd p)) (v_periodic v)) ->
     (n_type m = Periodic \/ n_type m = Aligned) /\ n_value m <> 0) /\
  (forall i t, appear v i (fst (life_run i Idle h)) = Timing t ->
     (n_type (t_mon t) = Periodic \/ n_type (t_mon t) = Aligned) /\ n_value (t_mon t) <> 0 /\ v_value v (t_var t) <> None).
