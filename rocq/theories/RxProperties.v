(** * C131: what the CSMS sends arrives whole, once and in order *)
From Coq Require Import List Arith Lia Bool.
From Verif Require Import RxModel RxSpec RxProofs.
Import ListNotations.

(** Messages of one frame each, in whatever pieces they come and however the threads
    interleave: those handed over and those waiting are what was sent. *)
Theorem C131_messages_arrive_whole_once_and_in_order_partial : forall es s ms,
  run init es = Next s -> Forall in_one_frame ms ->
  client es = flat_map message_arrives ms ->
  delivered s ++ rqueue s = map content ms.
Proof.
  intros es s ms H F C.
  assert (N : ~ In Clear es).
  { intros X. assert (Y : In Clear (client es)) by (apply filter_In; split; [exact X|reflexivity]).
    rewrite C in Y. apply in_flat_map in Y. destruct Y as [m [_ Y]].
    unfold message_arrives in Y. apply in_flat_map in Y. destruct Y as [f [_ Y]].
    induction f as [|d f IH]; cbn in Y; [exact Y|]. destruct Y as [Y|Y]; [discriminate Y|auto]. }
  rewrite (run_exact _ _ _ N H). cbn [delivered rqueue buffer init app].
  rewrite <- pushed_client, C. apply messages_full. exact F.
Qed.
Print Assumptions C131_messages_arrive_whole_once_and_in_order_partial.

(** When connections are lost, maybe in the middle of a message: what is handed over are
    some of the messages sent, each whole and once, and in order. *)
Theorem C131_nothing_else_arrives_over_lost_connections_partial : forall es s cs,
  run init es = Next s -> Forall plausible cs ->
  client es = flat_map connection_arrives cs ->
  some_of (delivered s ++ rqueue s) (map content (flat_map whole cs)).
Proof.
  intros es s cs H F C. rewrite <- (connections_full cs F), <- C, pushed_client.
  exact (run_some _ _ _ H).
Qed.
Print Assumptions C131_nothing_else_arrives_over_lost_connections_partial.

(** A message in several frames is handed over in parts. *)
Theorem C131_messages_arrive_whole_once_and_in_order_refuted : exists es s m,
  run init es = Next s /\ Forall proper m /\ client es = message_arrives m /\
  delivered s = [[1; 2]; [3]] /\ content m = [1; 2; 3].
Proof.
  exists [Chunk [1; 2] 0; Look; Take; Chunk [3] 0; Look; Take].
  eexists. exists [[[1; 2]]; [[3]]]. split; [reflexivity|].
  split; [repeat constructor; discriminate|]. split; [reflexivity|]. split; reflexivity.
Qed.
Print Assumptions C131_messages_arrive_whole_once_and_in_order_refuted.

(** In general it is the frames that are handed over, whole, once and in order. *)
Theorem C131_every_frame_is_handed_over : forall es s ms,
  run init es = Next s -> Forall proper (concat ms) ->
  client es = flat_map message_arrives ms ->
  delivered s ++ rqueue s = map (@concat nat) (concat ms).
Proof.
  intros es s ms H F C. rewrite all_frames in C.
  assert (N : ~ In Clear es).
  { intros X. assert (Y : In Clear (client es)) by (apply filter_In; split; [exact X|reflexivity]).
    rewrite C in Y. apply in_flat_map in Y. destruct Y as [f [_ Y]].
    induction f as [|d f IH]; cbn in Y; [exact Y|]. destruct Y as [Y|Y]; [discriminate Y|auto]. }
  rewrite (run_exact _ _ _ N H). cbn [delivered rqueue buffer init app].
  rewrite <- pushed_client, C. apply frames_full. exact F.
Qed.
Print Assumptions C131_every_frame_is_handed_over.

(** As long as the connection lasts the receiving thread never takes from an empty queue. *)
Theorem C131_no_undefined_behaviour_partial : forall es, ~ In Clear es -> run init es <> Undefined.
Proof. intros es N. apply run_defined; [exact N|discriminate]. Qed.
Print Assumptions C131_no_undefined_behaviour_partial.

(** It does if the queues are cleared between its test and its pop. *)
Theorem C131_no_undefined_behaviour_refuted : exists es cs,
  Forall plausible cs /\ client es = flat_map connection_arrives cs /\ run init es = Undefined.
Proof.
  exists [Chunk [1] 0; Look; Clear; Take], [{| whole := [[[[1]]]]; torn := []; rest := [] |}].
  split; [|split; reflexivity].
  constructor; [|constructor]. split; [|left; reflexivity].
  constructor; [|constructor]. exists [[1]]. split; [reflexivity|]. split; [discriminate|left; reflexivity].
Qed.
Print Assumptions C131_no_undefined_behaviour_refuted.

(** The receiving thread alone hands over all that waits. *)
Theorem C131_all_that_waits_is_handed_over : forall es s,
  run init es = Next s -> at_ s = Looking ->
  exists fs s', run s fs = Next s' /\ client fs = [] /\ rqueue s' = [] /\
    delivered s' = delivered s ++ rqueue s.
Proof.
  intros es s _ A. destruct (empties _ s eq_refl A) as [k E].
  eexists. eexists. split; [exact E|]. split; [|split; reflexivity].
  clear. induction k as [|k IH]; [reflexivity|]. cbn. exact IH.
Qed.
Print Assumptions C131_all_that_waits_is_handed_over.

(** ** Cases *)

(** Three messages, the second in three pieces and the third empty, the receiving thread
    taking the first while the second comes in. *)
Example C131_in_pieces :
  let ms := [[[[1]]]; [[[2; 3]; [4]; [5]]]; [[[]]]] in
  let es := [Chunk [1] 0; Look; Chunk [2; 3] 2; Take; Chunk [4] 1; Look; Chunk [5] 0; Chunk [] 0; Look] in
  Forall in_one_frame ms /\ client es = flat_map message_arrives ms /\
  match run init es with
  | Next s => delivered s = [[1]] /\ rqueue s = [[2; 3; 4; 5]; []]
  | _ => False
  end.
Proof.
  cbn. split; [|split; [reflexivity|split; reflexivity]].
  constructor; [exists [[1]]; split; [reflexivity|split; [discriminate|left; reflexivity]]|].
  constructor; [exists [[2; 3]; [4]; [5]]; split; [reflexivity|split; [discriminate|right; repeat constructor; discriminate]]|].
  constructor; [exists [[]]; split; [reflexivity|split; [discriminate|left; reflexivity]]|constructor].
Qed.

(** A connection lost in the middle of a message, with one not yet handed over. *)
Example C131_lost :
  let c := {| whole := [[[[1]]]; [[[2]]]]; torn := [[3]; [4]]; rest := [[5]] |} in
  let d := {| whole := [[[[6]]]]; torn := []; rest := [] |} in
  let es := [Chunk [1] 0; Look; Take; Chunk [2] 0; Chunk [3] 2; Chunk [4] 1; Clear; Chunk [6] 0; Look; Take; Clear] in
  plausible c /\ client es = flat_map connection_arrives [c; d] /\
  match run init es with Next s => delivered s = [[1]; [6]] /\ rqueue s = [] | _ => False end.
Proof.
  cbn. split; [|split; [reflexivity|split; reflexivity]]. split.
  - constructor; [exists [[1]]; split; [reflexivity|split; [discriminate|left; reflexivity]]|].
    constructor; [exists [[2]]; split; [reflexivity|split; [discriminate|left; reflexivity]]|constructor].
  - right. cbn. split; [discriminate|]. split; [discriminate|]. right. repeat constructor; discriminate.
Qed.
