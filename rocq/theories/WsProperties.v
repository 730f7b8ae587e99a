(** C24 (reconnect back-off) and C59 (ping supervision). *)
From Coq Require Import ZArith List Bool Lia.
From Verif Require Import WsModel WsSpec WsProofs.
Import ListNotations.
Local Open Scope Z_scope.

(** ** C24 *)

(** Whatever happened before, after a fresh start or an established connection the delays of the following failures are
    those of the doubling rule: the k-th failure (from 0) waits for the delay given by the random parts drawn up to it,
    of which only the first RetryBackOffRepeatTimes + 1 count. No step overflows. *)
Theorem backoff_delays :
  forall o w e rs,
    sane o -> representable o -> (e = Start \/ e = Established) ->
    Forall (drawn o) rs -> Z.of_nat (length rs) < int_max ->
    (o_max_attempts o = -1 \/ Z.of_nat (length rs) <= o_max_attempts o) ->
    forall k, (k < length rs)%nat ->
      nth_error (snd (run o (e :: map Failed rs) w)) (S k) =
      Some (ReconnectIn (1000 * delay_s (o_wait o) (rev (firstn (Z.to_nat (o_repeat o + 1)) (firstn (S k) rs))))).
Proof.
  intros o w e rs S R E F L M k K. cbn [run].
  assert (A : w_attempts (fst (step o e w)) = 1) by (destruct E; subst; reflexivity).
  destruct (step o e w) as [w1 x]. cbn [fst] in A.
  pose proof (failures o w1 S R A rs F L M) as H. destruct (run o (map Failed rs) w1) as [w2 xs].
  destruct H as (_ & _ & H). cbn [snd nth_error]. apply H. exact K.
Qed.
Print Assumptions backoff_delays.

(** Ten seconds minimum, two repetitions, up to three random seconds. *)
Definition example_options : options := {| o_range := 3; o_repeat := 2; o_wait := 10; o_max_attempts := -1 |}.

Example backoff_delays_ex :
  sane example_options /\ representable example_options /\ Forall (drawn example_options) [1; 0; 3; 2; 2] /\
  snd (run example_options (Established :: map Failed [1; 0; 3; 2; 2]) (init 60 5)) =
    [Nothing; ReconnectIn 11000; ReconnectIn 22000; ReconnectIn 47000; ReconnectIn 47000; ReconnectIn 47000].
Proof.
  split; [cbv; intuition discriminate|]. split; [cbv; intuition discriminate|]. split; [|vm_compute; reflexivity].
  repeat (apply Forall_cons; [cbv; intuition discriminate|]). apply Forall_nil.
Qed.

(** Hence every delay is between the minimum and the closed-form bound: minimum doubled per failure, random range at its
    largest, and no growth beyond the repetition count. *)
Theorem backoff_bounds :
  forall o w e rs,
    sane o -> representable o -> (e = Start \/ e = Established) ->
    Forall (drawn o) rs -> Z.of_nat (length rs) < int_max ->
    (o_max_attempts o = -1 \/ Z.of_nat (length rs) <= o_max_attempts o) ->
    forall k, (k < length rs)%nat ->
      let n := Nat.min (S k) (Z.to_nat (o_repeat o + 1)) in
      exists d, nth_error (snd (run o (e :: map Failed rs) w)) (S k) = Some (ReconnectIn (1000 * d)) /\
        o_wait o <= d /\
        o_wait o * 2 ^ Z.of_nat (n - 1) <= d <= o_wait o * 2 ^ Z.of_nat (n - 1) + o_range o * (2 ^ Z.of_nat n - 1).
Proof.
  intros o w e rs S R E F L M k K n. eexists. split; [apply backoff_delays; auto|].
  destruct S as (W & Rg & P).
  set (l := rev (firstn (Z.to_nat (o_repeat o + 1)) (firstn (Datatypes.S k) rs))).
  assert (Ln : length l = n).
  { unfold l. rewrite rev_length, !firstn_length. unfold n. lia. }
  assert (Fl : Forall (fun r => 0 <= r <= o_range o) l).
  { unfold l. apply Forall_rev, Forall_firstn, Forall_firstn. exact F. }
  assert (N : (1 <= n)%nat) by (unfold n; lia).
  assert (NE : l <> []) by (intros NE; rewrite NE in Ln; cbn [length] in Ln; lia).
  assert (B := delay_bounds (o_wait o) (o_range o) l W Rg Fl NE).
  rewrite Ln in B. unfold least_delay_s, largest_delay_s in B.
  assert (1 <= 2 ^ Z.of_nat (n - 1)) by (change 1 with (2 ^ Z.of_nat 0); apply pow2_mono; lia).
  split; [nia|lia].
Qed.
Print Assumptions backoff_bounds.

(** Once the repetition count is reached, the delay stays what it was, whatever is drawn. *)
Theorem backoff_constant :
  forall o w e rs,
    sane o -> representable o -> (e = Start \/ e = Established) ->
    Forall (drawn o) rs -> Z.of_nat (length rs) < int_max ->
    (o_max_attempts o = -1 \/ Z.of_nat (length rs) <= o_max_attempts o) ->
    forall k, (Z.to_nat (o_repeat o) <= k < length rs)%nat ->
      nth_error (snd (run o (e :: map Failed rs) w)) (S k) =
      nth_error (snd (run o (e :: map Failed rs) w)) (S (Z.to_nat (o_repeat o))).
Proof.
  intros o w e rs S R E F L M k K. rewrite !backoff_delays; auto; try lia.
  destruct S as (_ & _ & P).
  rewrite !firstn_firstn. replace (Z.to_nat (o_repeat o + 1)) with (Datatypes.S (Z.to_nat (o_repeat o))) by lia.
  rewrite (Nat.min_l _ (Datatypes.S k)) by lia. rewrite Nat.min_id. reflexivity.
Qed.
Print Assumptions backoff_constant.

(** The number of attempts is limited by max_connection_attempts: that many failures are followed by another attempt,
    the next one is not. With -1 there is no limit (backoff_delays). *)
Theorem attempts_exhausted :
  forall o w e rs r,
    sane o -> representable o -> (e = Start \/ e = Established) ->
    Forall (drawn o) rs -> 0 <= o_max_attempts o < int_max -> Z.of_nat (length rs) = o_max_attempts o ->
    nth_error (snd (run o (e :: map Failed rs ++ [Failed r]) w)) (S (length rs)) = Some Exhausted.
Proof.
  intros o w e rs r S R E F M L. cbn [run].
  assert (A : w_attempts (fst (step o e w)) = 1) by (destruct E; subst; reflexivity).
  destruct (step o e w) as [w1 x]. cbn [fst] in A. rewrite run_app.
  pose proof (failures o w1 S R A rs F ltac:(lia) ltac:(right; lia)) as H.
  pose proof (run_length o (map Failed rs) w1) as RL. rewrite map_length in RL.
  destruct (run o (map Failed rs) w1) as [w2 xs]. cbn [snd] in RL. destruct H as (HA & _).
  cbn [run step]. unfold loop_decision. cbn [w_attempts set_link].
  destruct (Z.eqb_spec (o_max_attempts o) (-1)); [lia|].
  destruct (Z.leb_spec (w_attempts w2) (o_max_attempts o)); [lia|].
  cbn [snd nth_error orb]. rewrite nth_error_app2 by lia. rewrite RL, Nat.sub_diag. reflexivity.
Qed.
Print Assumptions attempts_exhausted.

Example attempts_exhausted_ex :
  snd (run {| o_range := 3; o_repeat := 2; o_wait := 10; o_max_attempts := 2 |} (Start :: map Failed [1; 0; 3]) (init 60 5)) =
    [Nothing; ReconnectIn 11000; ReconnectIn 22000; Exhausted].
Proof. vm_compute. reflexivity. Qed.

(** Without [representable] the claim fails: nothing limits RetryBackOffRepeatTimes, and the milliseconds overflow an
    [int] (undefined behaviour) with an unremarkable minimum of five seconds. *)
Theorem backoff_overflow_refuted :
  exists o rs, sane o /\ Forall (drawn o) rs /\ o_wait o = 5 /\ (length rs <= 20)%nat /\
    In Overflow (snd (run o (Start :: map Failed rs) (init 60 5))).
Proof.
  exists {| o_range := 2; o_repeat := 30; o_wait := 5; o_max_attempts := -1 |}, (repeat 1 20).
  split; [cbv; intuition discriminate|]. split; [|split; [reflexivity|split; [cbn; lia|vm_compute; tauto]]].
  apply Forall_forall. intros x I. apply repeat_spec in I. subst. cbv. intuition discriminate.
Qed.
Print Assumptions backoff_overflow_refuted.

(** A negative repetition count makes the station reconnect without any delay. *)
Theorem negative_repeat_no_delay_refuted :
  exists o r, 0 <= o_wait o /\ o_wait o = 60 /\ drawn o r /\
    snd (run o [Start; Failed r] (init 60 5)) = [Nothing; ReconnectIn 0].
Proof.
  exists {| o_range := 0; o_repeat := -1; o_wait := 60; o_max_attempts := -1 |}, 0.
  vm_compute. intuition discriminate.
Qed.
Print Assumptions negative_repeat_no_delay_refuted.

(** ** C59 *)

(** On a connection without pending ping, with [interval] seconds configured, a ping is sent with the
    (interval + 1)-th second and not before. *)
Theorem ping_is_sent :
  forall o w i, w_timer w = true -> w_connected w = true -> w_cleared w = true -> w_ping_el w = 0 ->
    w_interval w = Z.of_nat i ->
    snd (run o (repeat Tick (i + 1)) w) = repeat Nothing i ++ [Ping].
Proof.
  intros o w i T C K P I. rewrite repeat_app, run_app.
  rewrite (ticks_before_ping o w (Z.of_nat i) T K i I) by lia.
  cbn. unfold tick. cbn. rewrite T, P, I, C.
  destruct (Z.ltb_spec (Z.of_nat i) (0 + Z.of_nat i + 1)); [|lia]. reflexivity.
Qed.
Print Assumptions ping_is_sent.

(** After a ping, if no pong arrives, the connection is closed with the (pong_timeout + 1)-th second and not before. *)
Theorem missing_pong_closes :
  forall o w e w' p, step o e w = (w', Ping) -> w_pong_timeout w = Z.of_nat p ->
    snd (run o (repeat Tick (p + 1)) w') = repeat Nothing p ++ [PongTimeout].
Proof.
  intros o w e w' p S P.
  assert (H : w_timer w' = true /\ w_cleared w' = false /\ w_pong_el w' = 0 /\ w_pong_timeout w' = Z.of_nat p).
  { destruct e; cbn [step] in S; try discriminate.
    - exfalso. unfold loop_decision, get_reconnect_interval in S.
      repeat match type of S with context [if ?c then _ else _] => destruct c; cbn in S; try discriminate end.
    - unfold tick in S. destruct (w_timer w) eqn:T; cbn [negb] in S; [|discriminate].
      destruct (w_cleared w); cbn [negb] in S.
      + destruct (w_interval w <? w_ping_el w + 1); [|discriminate]. injection S as <- _. cbn. auto.
      + destruct (w_pong_timeout w <? w_pong_el w + 1); discriminate. }
  destruct H as (T & C & E & P'). rewrite repeat_app, run_app.
  rewrite (ticks_before_timeout o w' (Z.of_nat p) T C p P') by lia.
  cbn. unfold tick. cbn. rewrite T, P', E.
  destruct (Z.ltb_spec (Z.of_nat p) (0 + Z.of_nat p + 1)); [|lia]. reflexivity.
Qed.
Print Assumptions missing_pong_closes.

(** Conversely, on a connection that came up without pending ping, it is only closed for a missing pong after a ping
    that was really sent on this connection and followed by pong_timeout seconds without any pong. *)
Theorem pong_timeout_justified :
  forall o w0 es, w_cleared w0 = true -> w_connected w0 = true -> Forall standing es -> 0 <= w_pong_timeout w0 ->
    snd (step o Tick (fst (run o es w0))) = PongTimeout ->
    exists es1 n, es = es1 ++ Tick :: repeat Tick n /\ Z.of_nat n >= w_pong_timeout w0 /\
      snd (step o Tick (fst (run o es1 w0))) = Ping.
Proof.
  intros o w0 es C K F P0 T. pose proof (pending_ping o w0 C K es F) as H. cbv zeta in H.
  set (w := fst (run o es w0)) in *. destruct H as (HP & HC & H).
  cbn [step] in T. unfold tick in T.
  destruct (w_timer w) eqn:Et; cbn [negb] in T; [|discriminate].
  destruct (w_cleared w) eqn:Ec; cbn [negb] in T.
  - exfalso. destruct (w_interval w <? w_ping_el w + 1); [|discriminate]. cbn in T. destruct (w_connected w); discriminate.
  - destruct H as [H|[H|(es1 & n & E & G & N)]]; try discriminate.
    destruct (Z.ltb_spec (w_pong_timeout w) (w_pong_el w + 1)); [|discriminate].
    exists es1, n. repeat split; auto. fold w in N. lia.
Qed.
Print Assumptions pong_timeout_justified.

(** A connection with a two second interval and a one second timeout; the first ping is answered, the second is not. *)
Definition example_connection : ws := fst (step example_options Established (init 2 1)).

Example ping_ex :
  w_timer example_connection = true /\ w_connected example_connection = true /\ w_cleared example_connection = true /\
  snd (run example_options [Tick; Tick; Tick; Tick; Pong; Tick; Tick; Tick; Tick; Tick; Tick] example_connection) =
  [Nothing; Nothing; Ping; Nothing; Nothing; Nothing; Nothing; Ping; Nothing; PongTimeout; Nothing].
Proof. vm_compute. auto. Qed.

(** As long as the ping interval is not changed while the connection is down, there are no pings and no pong timeouts
    without a connection. *)
Theorem no_ping_without_connection :
  forall o i p es, Forall no_set_ping es ->
    let w := fst (run o es (init i p)) in
    w_connected w = false -> step o Tick w = (w, Nothing).
Proof.
  intros o i p es F w C. pose proof (timer_connected o es (init i p) F ltac:(discriminate)) as H. fold w in H.
  cbn [step]. unfold tick. destruct (w_timer w); [|reflexivity]. rewrite H in C by reflexivity. discriminate.
Qed.
Print Assumptions no_ping_without_connection.

Example no_ping_without_connection_ex :
  let w := fst (run example_options [Start; Established; Tick; Tick; Tick; Failed 1] (init 2 1)) in
  w_connected w = false /\ w_cleared w = false /\ step example_options Tick w = (w, Nothing).
Proof. vm_compute. auto. Qed.

(** The pending ping of a lost connection is not forgotten: the next connection is closed for a missing pong although no
    ping was sent on it. *)
Theorem stale_ping_closes_new_connection_refuted :
  exists o es1 n,
    let w := fst (run o es1 (init 2 1)) in
    w_connected (fst (step o Established w)) = true /\
    snd (run o (Established :: repeat Tick n) w) = repeat Nothing n ++ [PongTimeout].
Proof.
  exists example_options, [Start; Established; Tick; Tick; Tick; Failed 1], 2%nat. vm_compute. auto.
Qed.
Print Assumptions stale_ping_closes_new_connection_refuted.

(** Changing the interval while the connection is down starts the timer, and the attempt to connect is then closed for a
    missing pong. *)
Theorem ping_interval_while_down_refuted :
  exists o es, ~ In Established es /\ In PongTimeout (snd (run o es (init 2 1))).
Proof.
  exists example_options, ([Start; Failed 1; SetPing 2 1] ++ repeat Tick 5). split; [|vm_compute; tauto].
  cbn. intuition discriminate.
Qed.
Print Assumptions ping_interval_while_down_refuted.

(** A positive interval supervises every connection that comes up ... *)
Theorem connection_is_supervised :
  forall o w i, w_cleared w = true -> w_ping_el w = 0 -> w_interval w = Z.of_nat i -> (0 < i)%nat ->
    snd (run o (Established :: repeat Tick (i + 1)) w) = Nothing :: repeat Nothing i ++ [Ping].
Proof.
  intros o w i C E I P. cbn [run]. destruct (step o Established w) as [w1 x] eqn:S. cbn [step] in S. injection S as <- <-.
  match goal with |- context [run o (repeat Tick (i + 1)) ?u] => pose proof (ping_is_sent o u i) as H end.
  destruct (run o (repeat Tick (i + 1)) _) as [w2 xs]. cbn [snd] in *. rewrite H; auto.
  cbn. apply Z.ltb_lt. lia.
Qed.
Print Assumptions connection_is_supervised.

(** ... and with an interval of zero or less there are neither pings nor pong timeouts, until it is set again: whatever
    state the connection was in when the interval was set. *)
Definition no_positive_ping (e : event) : Prop := match e with SetPing i _ => i <= 0 | _ => True end.

Lemma disabled_run o es : forall w, Forall no_positive_ping es -> w_timer w = false -> w_interval w <= 0 ->
  ~ In Ping (snd (run o es w)) /\ ~ In PongTimeout (snd (run o es w)).
Proof.
  induction es as [|e es IH]; intros w F T I; cbn [run]; [split; intros []|].
  inversion F as [|? ? P F']. subst.
  assert (H : w_timer (fst (step o e w)) = false /\ w_interval (fst (step o e w)) <= 0 /\
              snd (step o e w) <> Ping /\ snd (step o e w) <> PongTimeout).
  { destruct e; cbn [step no_positive_ping] in *.
    - cbn. repeat split; auto; discriminate.
    - cbn. repeat split; auto; try discriminate. apply Z.ltb_ge. auto.
    - unfold loop_decision, get_reconnect_interval.
      repeat match goal with |- context [if ?c then _ else _] => destruct c end; cbn; repeat split; auto; discriminate.
    - cbn. repeat split; auto; discriminate.
    - cbn. repeat split; auto; try discriminate. apply Z.ltb_ge. auto.
    - unfold tick. rewrite T. cbn. repeat split; auto; discriminate.
    - cbn. repeat split; auto; discriminate. }
  destruct (step o e w) as [w1 x]. cbn [fst snd] in H. destruct H as (H1 & H2 & H3 & H4).
  specialize (IH w1 F' H1 H2). destruct (run o es w1) as [w2 xs]. cbn [snd In] in *. intuition.
Qed.

Theorem no_ping_when_disabled :
  forall o w i p es, i <= 0 -> Forall no_positive_ping es ->
    (forall x, In x (snd (run o (SetPing i p :: es) w)) -> x <> Ping /\ x <> PongTimeout) /\
    (forall x, In x (snd (run o es (init i p))) -> x <> Ping /\ x <> PongTimeout).
Proof.
  intros o w i p es I F. split; intros x H.
  - cbn [run] in H. destruct (step o (SetPing i p) w) as [w1 y] eqn:S. cbn [step] in S. injection S as <- <-.
    match type of H with context [run o es ?u] => destruct (disabled_run o es u F) as [A B] end;
      [cbn; apply Z.ltb_ge; auto|cbn; auto|].
    destruct (run o es _) as [w2 xs]. cbn [snd In] in *. destruct H as [<-|H]; [split; discriminate|].
    split; intros ->; auto.
  - destruct (disabled_run o es (init i p) F) as [A B]; [reflexivity|auto|]. split; intros ->; auto.
Qed.
Print Assumptions no_ping_when_disabled.

Example no_ping_when_disabled_ex :
  snd (run example_options ([SetPing 0 1; Tick; Tick; Tick; Tick]) example_connection) = repeat Nothing 5 /\
  In Ping (snd (run example_options ([SetPing 1 1; Tick; Tick; Tick; Tick]) example_connection)).
Proof. vm_compute. auto. Qed.
