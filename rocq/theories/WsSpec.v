(** What back-off and ping supervision are supposed to do. *)
From Coq Require Import ZArith List Bool.
From Verif Require Import WsModel.
Import ListNotations.
Local Open Scope Z_scope.

(** Back-off delay (seconds) before the reconnection that follows failure number [length rs], where [rs] are the random
    parts drawn so far, the latest first: it starts at the minimum plus a random part and doubles each time, plus a new
    random part. *)
Fixpoint delay_s (wait : Z) (rs : list Z) : Z :=
  match rs with
  | [] => 0
  | [r] => wait + r
  | r :: rs' => 2 * delay_s wait rs' + r
  end.

(** The smallest and largest possible delay after failure number [n] (n >= 1). *)
Definition least_delay_s (wait : Z) (n : nat) : Z := wait * 2 ^ Z.of_nat (n - 1).
Definition largest_delay_s (wait range : Z) (n : nat) : Z :=
  wait * 2 ^ Z.of_nat (n - 1) + range * (2 ^ Z.of_nat n - 1).

(** Sensible settings: nothing negative. *)
Definition sane (o : options) : Prop := 0 <= o_wait o /\ 0 <= o_range o /\ 0 <= o_repeat o.

(** A random part the generator can give. *)
Definition drawn (o : options) (r : Z) : Prop := 0 <= r <= o_range o.

(** The largest possible delay of the configuration is representable in milliseconds. *)
Definition representable (o : options) : Prop :=
  largest_delay_s (o_wait o) (o_range o) (Z.to_nat (o_repeat o + 1)) * 1000 <= int_max /\ o_repeat o + 1 <= int_max.

(** Events that happen on a standing connection. *)
Definition standing (e : event) : Prop := e = Tick \/ e = Pong.
