(** Lemmas about the connectivity manager: exceptions, and what is kept over a restart. *)
From Coq Require Import ZArith List Bool String Ascii Lia Arith.
From Verif Require Import StrModel StrSpec StrProofs StrProperties JsonModel JsonProofs DmSpec DmProofs2 ConnModel ConnSpec ConnProofs ConnProofs2.
Import ListNotations.
Local Open Scope string_scope.
Local Open Scope Z_scope.

(** ** No exceptions *)

Definition safe (level : Z) (s : cm) : Prop :=
  uniform level s /\ (prio s < List.length (slots s))%nat /\ (forall x, pending s = Some x -> exists p, get_profile s x = Some p) /\
  has_colon (station_id s) = false.

Lemma safe_congr level s s' : slots s' = slots s -> cache s' = cache s -> allow_zero_level s' = allow_zero_level s ->
  dm_level s' = dm_level s -> prio s' = prio s -> station_id s' = station_id s ->
  (pending s' = pending s \/ exists x p, pending s' = Some x /\ get_profile s x = Some p) -> safe level s -> safe level s'.
Proof.
  intros E1 E2 E3 E4 E5 E6 E7 ((U1 & U2 & U3) & P & Q & C). unfold safe, uniform. rewrite E1, E4, E5, E6.
  assert (GP : forall x, get_profile s' x = get_profile s x) by (intros x; unfold get_profile; rewrite E2, E3; reflexivity).
  repeat match goal with |- _ /\ _ => split end; auto.
  - intros x I. destruct (U3 x I) as (p & H & L). exists p. split; auto. eapply offered_congr; [..|exact H]; auto.
  - intros x I. rewrite GP. destruct E7 as [E7|(y & p & Y & H)]; [apply Q; congruence|]. rewrite I in Y. injection Y as <-. eauto.
Qed.

Lemma next_slot_in l x : l <> [] -> exists y, next_slot l x = Ret y /\ In y l.
Proof.
  intros N. assert (0 < List.length l)%nat by (destruct l; [congruence|cbn; lia]).
  unfold next_slot, slot_at. set (i := match index_of x l with Some _ => _ | None => _ end).
  assert (I : (i < List.length l)%nat).
  { unfold i. destruct (index_of x l); [apply Nat.mod_upper_bound|]; lia. }
  destruct (nth_error l i) as [y|] eqn:E; [|apply nth_error_None in E; lia].
  exists y. split; auto. eapply nth_error_In; eauto.
Qed.

Lemma safe_active level s : safe level s -> exists x, active_slot s = Ret x /\ In x (slots s).
Proof.
  intros (_ & P & _). unfold active_slot, slot_at. destruct (nth_error (slots s) (prio s)) as [x|] eqn:E.
  - exists x. split; auto. eapply nth_error_In; eauto.
  - apply nth_error_None in E. lia.
Qed.

Lemma filter_true {A} (f : A -> bool) : forall l, (forall x, In x l -> f x = true) -> filter f l = l.
Proof. induction l as [|x l IH]; cbn; intros H; auto. rewrite H by auto. f_equal. apply IH. auto. Qed.

Lemma safe_check level s : safe level s -> exists s', check_cache s = Ret s' /\ safe level s' /\ slots s' = slots s /\ cache s' = cache s /\
  allow_zero_level s' = allow_zero_level s /\ dm_level s' = dm_level s.
Proof.
  intros S. assert (S' := S). destruct S' as ((U1 & U2 & U3) & P & Q & C). unfold check_cache.
  destruct (Z.eqb_spec (last_level s) (dm_level s)); [exists s; auto 10|].
  destruct (safe_active _ _ S) as (a & A & IA). rewrite A. cbn [bind].
  set (b := match pending s with Some p => p | None => a end).
  rewrite filter_true.
  2:{ intros x I. destruct (U3 x I) as (p & H & L). apply get_profile_ok in H. rewrite H. apply Z.leb_le. lia. }
  destruct (index_of b (slots s)) as [i|] eqn:I.
  - eexists. split; [reflexivity|]. split; auto.
    apply index_of_some, nth_error_In in I. destruct (U3 b I) as (p & H & L). apply get_profile_ok in H.
    eapply safe_congr; [..|exact S]; auto. right. exists b, p. auto.
  - destruct (next_slot_in (slots s) b U1) as (y & Y & IY). rewrite Y. cbn [bind].
    eexists. split; [reflexivity|]. split; auto.
    destruct (U3 y IY) as (p & H & L). apply get_profile_ok in H.
    eapply safe_congr; [..|exact S]; auto. right. exists y, p. auto.
Qed.

Lemma safe_try level s e : safe level s -> exists s' ev, try_connect s e = Ret (s', ev) /\ safe level s'.
Proof.
  intros S. unfold try_connect. rewrite (proj2 (proj2 (proj2 S))).
  destruct (safe_check _ _ S) as (s1 & -> & S1 & _). cbn [bind].
  destruct (safe_active _ _ S1) as (a & A & IA). rewrite A. cbn [bind].
  set (b := match pending s1 with Some p => p | None => a end).
  assert (GP : exists p, get_profile s1 b = Some p).
  { unfold b. destruct S1 as ((_ & _ & U) & _ & Q & _). destruct (pending s1) as [x|]; [apply Q; auto|].
    destruct (U a IA) as (p & H & _). apply get_profile_ok in H. eauto. }
  destruct GP as [p GP]. rewrite GP.
  destruct (if e_url e p && e_cfg e p then index_of b (slots s1) else None) as [i|] eqn:I.
  - eexists _, _. split; [reflexivity|]. destruct (e_url e p && e_cfg e p); [|discriminate]. apply index_of_some in I.
    destruct S1 as ((U1 & U2 & U3) & P & Q & C). unfold safe, uniform. cbn.
    repeat match goal with |- _ /\ _ => split end; auto.
    + apply nth_error_Some. congruence.
    + discriminate.
  - destruct (wants s1); eexists _, _; (split; [reflexivity|]); exact S1.
Qed.

Lemma safe_step level s o : safe level s -> internal o -> exists s' ev, step s o = Ret (s', ev) /\ safe level s'.
Proof.
  intros S IN. assert (S' := S). destruct S' as ((U1 & U2 & U3) & P & Q & C).
  destruct (safe_active _ _ S) as (a & A & IA). destruct (U3 a IA) as (pa & PA & LA). apply get_profile_ok in PA.
  destruct o; cbn [step]; try contradiction.
  - unfold connect. destruct (slots s) as [|y l] eqn:SL; [congruence|]. rewrite A. cbn [bind].
    set (x := match slot with Some _ => _ | None => a end).
    destruct (get_profile s x) as [p|] eqn:GP; [|eexists _, _; split; [reflexivity|auto]].
    set (s1 := set_pending (set_wants s true) (Some x)).
    assert (S1 : safe level s1) by (eapply safe_congr; [..|exact S]; auto; right; exists x, p; auto).
    destruct (ws s1 && up s1); [eexists _, _; split; [reflexivity|auto]|]. apply safe_try; auto.
  - eexists _, _. split; [reflexivity|]. eapply safe_congr; [..|exact S]; auto.
  - unfold confirm. rewrite A. cbn [bind]. rewrite PA.
    set (s1 := if w_level e then _ else s).
    assert (S1 : safe level (remove_below s1 e)).
    { assert (X : safe level s1).
      { unfold s1. destruct (w_level e); auto. unfold safe, uniform. cbn. rewrite LA.
        repeat match goal with |- _ /\ _ => split end; auto. lia. }
      eapply safe_congr; [..|exact X]; auto. }
    destruct (safe_check _ _ S1) as (s2 & -> & S2 & _). cbn [bind]. eexists _, _. split; [reflexivity|auto].
  - unfold on_connected. rewrite A. cbn [bind]. eexists _, _. split; [reflexivity|]. eapply safe_congr; [..|exact S]; auto.
  - unfold on_disconnected. rewrite A. cbn [bind]. eexists _, _. split; [reflexivity|]. eapply safe_congr; [..|exact S]; auto.
  - unfold on_stopped. rewrite A. cbn [bind]. eexists _, _. split; [reflexivity|].
    destruct (wants s); exact S.
  - unfold on_timer. assert (T : safe level (set_timer s None)) by (eapply safe_congr; [..|exact S]; auto).
    assert (N : forall x, exists n, next_slot (slots (set_timer s None)) x = Ret n /\ safe level (set_pending (set_timer s None) (Some n))).
    { intros x. destruct (next_slot_in (slots s) x U1) as (n & N & I). exists n. split; auto.
      destruct (U3 n I) as (p & H & _). apply get_profile_ok in H. eapply safe_congr; [..|exact T]; auto. right. exists n, p. auto. }
    destruct (timer s) as [[x|r]|]; [| |eexists _, _; split; [reflexivity|auto]].
    + destruct (N x) as (n & -> & SN). cbn [bind]. apply safe_try; auto.
    + destruct r; try (change (active_slot (set_timer s None)) with (active_slot s); rewrite A; cbn [bind];
        destruct (N a) as (n & -> & SN); cbn [bind]); apply safe_try; auto.
  - unfold on_network_disconnected. rewrite A. cbn [bind]. rewrite PA. eexists _, _. split; [reflexivity|auto].
  - eexists _, _. split; [reflexivity|auto].
  - unfold refresh_options. rewrite A. cbn [bind]. rewrite PA. eexists _, _. split; [reflexivity|auto].
  - eexists _, _. split; [reflexivity|]. unfold set_network_profile. destruct valid as [v|]; auto.
    destruct (p_level p <? dm_level s); auto. destruct v; auto. cbn [negb]. destruct (w_profiles e); auto.
Qed.

Lemma safe_run level : forall l s, safe level s -> Forall internal l -> exists s' ev, run s l = Ret (s', ev) /\ safe level s'.
Proof.
  induction l as [|o l IH]; intros s S F.
  - exists s, []. auto.
  - inversion F; subst. destruct (safe_step _ _ o S) as (s1 & e1 & E & S1); auto.
    destruct (IH s1 S1) as (s2 & e2 & R & S2); auto. exists s2, (e1 ++ e2)%list. split; auto.
    cbn [run]. rewrite E. cbn [bind fst snd]. rewrite R. reflexivity.
Qed.

(** ** Texts *)

Lemma int_text_dump n : int_text n = dump_int n.
Proof. reflexivity. Qed.

Lemma without_digits c s : all_of isdigit s = true -> isdigit c = false -> without c s.
Proof.
  unfold without. induction s as [|x s IH]; cbn; intros A D; [tauto|]. apply andb_true_iff in A. destruct A as [A1 A2].
  intros [H|H]; [congruence|]. exact (IH A2 D H).
Qed.

Lemma int_text_plain n : without "," (int_text n) /\ int_text n <> "".
Proof.
  unfold int_text. destruct (Z.ltb_spec n 0).
  - destruct (dec_ok (- n) ltac:(lia)) as (A & _). cbn [append]. split; [|discriminate].
    intros H1. cbn in H1. destruct H1 as [H1|H1]; [discriminate|]. revert H1. apply without_digits; auto.
  - destruct (dec_ok n ltac:(lia)) as (A & _ & N & _). split; auto. apply without_digits; auto.
Qed.

Lemma int_text_stoi n : int_min <= n <= int_max -> stoi (int_text n) = Ret n.
Proof.
  intros R. unfold stoi, int_text.
  assert (RG : forall m, int_min <= m <= int_max -> (m <? int_min) || (int_max <? m) = false).
  { intros m H. apply orb_false_iff. rewrite !Z.ltb_ge. lia. }
  destruct (Z.ltb_spec n 0).
  - destruct (dec_ok (- n) ltac:(lia)) as (A & V & N & _). destruct (dec (- n)) as [|c t] eqn:E; [congruence|].
    cbn [append]. assert (A' := A). cbn [all_of] in A'. apply andb_true_iff in A'. destruct A' as [D _].
    change (skip_sign (String "-" (String c t))) with (String c t).
    unfold starts_with_digit. rewrite D, V. change (code "-" =? 45) with true. cbv iota zeta.
    rewrite RG by lia. f_equal. lia.
  - destruct (dec_ok n ltac:(lia)) as (A & V & N & _). destruct (dec n) as [|c t] eqn:E; [congruence|].
    assert (A' := A). cbn [all_of] in A'. apply andb_true_iff in A'. destruct A' as [D _].
    assert (SK : skip_sign (String c t) = String c t) by (unfold skip_sign; rewrite (isdigit_not_sign c D); reflexivity).
    rewrite SK. unfold starts_with_digit. rewrite D, V.
    assert (NM : code c =? 45 = false) by (apply isdigit_not_minus; auto). rewrite NM. cbv zeta.
    rewrite RG by lia. reflexivity.
Qed.

Lemma join_items_acc : forall l acc, acc <> "" -> Forall (fun x => x <> "") l -> join_items l acc = String.concat "," (acc :: l).
Proof.
  induction l as [|x l IH]; intros acc N F; [reflexivity|]. inversion F; subst. cbn [join_items].
  destruct (str_eq acc "") eqn:E; [apply DmProofs.str_eq_ok in E; contradiction|].
  rewrite IH; auto; [|destruct acc; discriminate].
  cbn [String.concat]. destruct l as [|y l].
  - rewrite <- app_assoc_s. reflexivity.
  - rewrite <- !app_assoc_s. reflexivity.
Qed.

Lemma join_items_joined l : Forall (fun x => x <> "") l -> join_items l "" = joined "," l.
Proof.
  intros F. destruct l as [|x l]; [reflexivity|]. cbn [join_items]. change (str_eq "" "") with true. cbv iota. cbn [append].
  inversion F; subst. apply join_items_acc; auto.
Qed.

Lemma parse_slots_ok : forall l ns, parse_slots l = Ret ns <-> Forall2 (fun it n => stoi it = Ret n) l ns.
Proof.
  induction l as [|x l IH]; intros ns; cbn.
  - split; [intros [= <-]; constructor|intros H; inversion H; reflexivity].
  - split.
    + destruct (stoi x) as [n|] eqn:E; [|discriminate]. cbn [bind]. destruct (parse_slots l) as [r|]; [|discriminate].
      intros [= <-]. constructor; auto. apply IH. reflexivity.
    + intros H. inversion H as [|? n ? r E F]; subst. rewrite E. cbn [bind]. apply IH in F. rewrite F. reflexivity.
Qed.

Lemma kept_items ps items : Forall (without ",") items ->
  let keep := filter (fun it => existsb (fun p => str_eq (int_text (p_slot p)) it) ps) items in
  split_string (join_items keep "") "," false = keep /\ (forall it, In it keep <-> In it items /\ exists p, In p ps /\ it = int_text (p_slot p)).
Proof.
  intros W keep.
  assert (IK : forall it, In it keep <-> In it items /\ exists p, In p ps /\ it = int_text (p_slot p)).
  { intros it. unfold keep. rewrite filter_In, existsb_exists. split.
    - intros (I & p & P & E). apply DmProofs.str_eq_ok in E. split; auto. exists p. auto.
    - intros (I & p & P & ->). split; auto. exists p. split; auto. apply DmProofs.str_eq_ok. reflexivity. }
  assert (NE : Forall (fun x => x <> "") keep).
  { rewrite Forall_forall. intros x I. apply IK in I. destruct I as (_ & p & _ & ->). apply int_text_plain. }
  split; auto. rewrite join_items_joined by auto. apply split_joined.
  - rewrite Forall_forall in W |- *. intros x I. apply W. apply IK in I. tauto.
  - destruct keep as [|x r] eqn:K; auto. right. rewrite <- K in *. clearbody keep.
    assert (In (last keep "") keep). { rewrite K. clear. revert x. induction r as [|y r IH]; intros x; cbn; auto. right. apply IH. }
    rewrite Forall_forall in NE. apply NE. auto.
Qed.

Lemma confirm_dm s e s' : confirm s e = Ret s' -> w_profiles e = true -> w_priority e = true ->
  dm_profiles s' = filter (fun p => dm_level s' <=? p_level p) (dm_profiles s) /\
  (let items := split_string (dm_priority s') "," false in
   items = filter (fun it => existsb (fun p => str_eq (int_text (p_slot p)) it) (dm_profiles s')) (split_string (dm_priority s) "," false) /\
   forall it, In it items <-> In it (split_string (dm_priority s) "," false) /\ exists p, In p (dm_profiles s') /\ it = int_text (p_slot p)) /\
  allow_zero_level s' = allow_zero_level s /\ station_id s' = station_id s /\ dm_active s' = dm_active s.
Proof.
  unfold confirm. intros H W1 W2. destruct (active_slot s) as [slot|]; [|discriminate]. cbn [bind] in H. revert H.
  set (s1 := match get_profile s slot with Some _ => _ | None => s end). intros H.
  assert (X : dm_profiles s1 = dm_profiles s /\ dm_priority s1 = dm_priority s /\ allow_zero_level s1 = allow_zero_level s /\
              station_id s1 = station_id s /\ dm_active s1 = dm_active s).
  { unfold s1. destruct (get_profile s slot); [destruct (w_level e)|]; auto 10. }
  clearbody s1. destruct X as (E1 & E2 & E3 & E4 & E5).
  assert (Y : forall r x, check_cache r = Ret x -> dm_profiles x = dm_profiles r /\ dm_priority x = dm_priority r /\ dm_level x = dm_level r /\
              allow_zero_level x = allow_zero_level r /\ station_id x = station_id r /\ dm_active x = dm_active r).
  { intros r x. unfold check_cache. destruct (last_level r =? dm_level r); [intros [= <-]; auto 10|].
    destruct (active_slot r); [|discriminate]. cbn [bind]. match goal with |- context [index_of ?a ?b] => destruct (index_of a b) end.
    - intros [= <-]. auto 10.
    - match goal with |- context [next_slot ?a ?b] => destruct (next_slot a b) end; [|discriminate]. intros [= <-]. auto 10. }
  destruct (Y _ _ H) as (Y1 & Y2 & Y3 & Y4 & Y5 & Y6). clear Y H.
  unfold remove_below in Y1, Y2, Y3, Y4, Y5, Y6. cbn in Y1, Y2, Y3, Y4, Y5, Y6. rewrite W1 in Y1. rewrite W2 in Y2.
  rewrite E1 in Y1, Y2. rewrite E2 in Y2.
  assert (FE : forall l, filter (fun p => negb (p_level p <? dm_level s1)) l = filter (fun p => dm_level s' <=? p_level p) l).
  { intros l. rewrite Y3. apply filter_ext. intros p. rewrite Z.leb_antisym. reflexivity. }
  rewrite FE in Y1, Y2. rewrite <- Y1 in Y2.
  destruct (kept_items (dm_profiles s') (split_string (dm_priority s) "," false)) as [K1 K2].
  { apply (split_any "," (dm_priority s)). }
  rewrite <- Y2 in K1. repeat match goal with |- _ /\ _ => split end; try congruence.
  intros it. rewrite K1. apply K2.
Qed.

Lemma confirm_reboot s e s' : confirm s e = Ret s' -> w_profiles e = true -> w_priority e = true ->
  Forall (fun p => int_min <= p_slot p <= int_max) (dm_profiles s) ->
  (allow_zero_level s = true \/ exists p, In p (dm_profiles s) /\ dm_level s' <= p_level p /\ p_level p <> 0) ->
  exists s2, restart s' = Ret s2 /\ dm_level s2 = dm_level s' /\
    (forall x, In x (slots s2) -> exists p, configured (cache s2) x p) /\
    (forall p, In p (cache s2) <-> In p (dm_profiles s) /\ dm_level s' <= p_level p) /\
    map int_text (slots s2) = split_string (dm_priority s') "," false.
Proof.
  intros C W1 W2 R A. destruct (confirm_dm _ _ _ C W1 W2) as (D & (_ & I) & Z1 & Z2 & Z3).
  assert (DIN : forall p, In p (dm_profiles s') <-> In p (dm_profiles s) /\ dm_level s' <= p_level p).
  { intros p. rewrite D, filter_In, Z.leb_le. tauto. }
  assert (PS : exists ns, parse_slots (split_string (dm_priority s') "," false) = Ret ns /\
            map int_text ns = split_string (dm_priority s') "," false /\ forall x, In x ns -> exists p, In p (dm_profiles s') /\ p_slot p = x).
  { assert (I' : forall it, In it (split_string (dm_priority s') "," false) -> exists p, In p (dm_profiles s') /\ it = int_text (p_slot p))
      by (intros it H; apply I in H; tauto).
    generalize dependent (split_string (dm_priority s') "," false). clear - R DIN. intros items _ I.
    induction items as [|it items IH].
    - exists []. repeat split. intros x [].
    - destruct IH as (ns & P & M & X); [intros; apply I; cbn; auto|].
      destruct (I it) as (p & IP & ->); [cbn; auto|]. exists (p_slot p :: ns). cbn.
      assert (RP : int_min <= p_slot p <= int_max) by (rewrite Forall_forall in R; apply R; apply DIN in IP; tauto).
      rewrite (int_text_stoi _ RP). cbn [bind]. rewrite P. cbn [bind]. rewrite M. repeat split; auto.
      intros x [<- |H]; eauto. }
  destruct PS as (ns & P & M & X). unfold restart, construct.
  assert (G : negb (allow_zero_level s') && negb (existsb (fun p => negb (p_level p =? 0)) (dm_profiles s')) = false).
  { rewrite Z1. destruct A as [A|(p & IP & LP & N)]; [rewrite A; reflexivity|].
    apply andb_false_iff. right. apply negb_false_iff. apply existsb_exists. exists p. split; [apply DIN; auto|].
    apply negb_true_iff, Z.eqb_neq. auto. }
  rewrite G, P. cbn [bind]. eexists. split; [reflexivity|]. cbn. repeat match goal with |- _ /\ _ => split end; auto.
  intros x H. destruct (X x H) as (p & IP & <-). destruct (first_of (p_slot p) (dm_profiles s')) as [q|] eqn:F.
  - exists q. apply first_of_ok; auto.
  - exfalso. clear -IP F. induction (dm_profiles s') as [|y l IH]; [contradiction|]. cbn in F.
    destruct (Z.eqb_spec (p_slot y) (p_slot p)); [discriminate|]. destruct IP as [-> |IP]; [congruence|auto].
Qed.

Lemma validate_ok leaf root level ps : forall l, validate_slots l ps level leaf root = Ret true <->
  Forall (fun it => exists n p, stoi it = Ret n /\ configured ps n p /\
    (p_level p <= level \/ (p_level p = 3 -> leaf = true) /\ (2 <= p_level p -> root = true))) l.
Proof.
  induction l as [|x l IH]; cbn [validate_slots]; [split; auto|].
  destruct ps as [|q ps'] eqn:PS.
  - split; [discriminate|]. intros F. inversion F as [|? ? (n & p & _ & ([|? ?] & b & E & _) & _) _]; discriminate.
  - rewrite <- PS in *. clear q ps' PS. destruct (stoi x) as [n|w] eqn:S.
    + destruct (first_of n ps) as [p|] eqn:F.
      * assert (CF := proj1 (first_of_ok _ _ _) F).
        assert (U : forall m q, stoi x = Ret m -> configured ps m q -> q = p).
        { intros m q E H. rewrite S in E. injection E as <-. apply first_of_ok in H. congruence. }
        destruct (Z.leb_spec (p_level p) level) as [L|L].
        -- rewrite IH. split; [intros H; constructor; auto; exists n, p; auto|intros H; inversion H; auto].
        -- destruct ((p_level p =? 3) && negb leaf) eqn:B1.
           ++ apply andb_true_iff in B1. destruct B1 as [B1 B2]. apply Z.eqb_eq in B1. apply negb_true_iff in B2.
              split; [discriminate|]. intros H. inversion H as [|? ? (m & q & E & K & Z) _]; subst.
              rewrite (U m q) in Z by auto. destruct Z as [Z|[Z _]]; [lia|]. specialize (Z B1). discriminate.
           ++ destruct ((2 <=? p_level p) && negb root) eqn:B3.
              ** apply andb_true_iff in B3. destruct B3 as [B3 B4]. apply Z.leb_le in B3. apply negb_true_iff in B4.
                 split; [discriminate|]. intros H. inversion H as [|? ? (m & q & E & K & Z) _]; subst.
                 rewrite (U m q) in Z by auto. destruct Z as [Z|[_ Z]]; [lia|]. specialize (Z B3). discriminate.
              ** rewrite IH. split; [|intros H; inversion H; auto]. intros H. constructor; auto. exists n, p.
                 split; [auto|]. split; [auto|]. right. split.
                 --- intros E. rewrite E in B1. cbn in B1. destruct leaf; auto.
                 --- intros E. apply Z.leb_le in E. rewrite E in B3. destruct root; auto.
      * split; [discriminate|]. intros H. inversion H as [|? ? (m & q & E & K & _) _]; subst. apply first_of_ok in K.
        rewrite S in E. injection E as <-. congruence.
    + split.
      * destruct (str_eq w "invalid_argument"); discriminate.
      * intros H. inversion H as [|? ? (m & q & E & _) _]; subst. rewrite S in E. discriminate.
Qed.

Lemma has_slot_ok slot l : has_slot slot l = true <-> In slot (map p_slot l).
Proof.
  induction l as [|x l IH]; cbn; [split; [discriminate|tauto]|]. rewrite orb_true_iff, IH, Z.eqb_eq. tauto.
Qed.

Lemma override_other p : forall l slot, slot <> p_slot p -> first_of slot (override_last p l) = first_of slot l.
Proof.
  induction l as [|x l IH]; intros slot N; cbn.
  - destruct (Z.eqb_spec (p_slot p) slot); [congruence|reflexivity].
  - destruct ((p_slot x =? p_slot p) && negb (has_slot (p_slot p) l)) eqn:E; cbn.
    + apply andb_true_iff in E. destruct E as [E _]. apply Z.eqb_eq in E. rewrite E.
      destruct (Z.eqb_spec (p_slot p) slot); [congruence|reflexivity].
    + rewrite IH by auto. reflexivity.
Qed.

Lemma override_same p : forall l, NoDup (map p_slot l) -> first_of (p_slot p) (override_last p l) = Some p /\ NoDup (map p_slot (override_last p l)) /\
  (forall y, In y (map p_slot (override_last p l)) <-> y = p_slot p \/ In y (map p_slot l)).
Proof.
  induction l as [|x l IH]; intros N; cbn.
  - rewrite Z.eqb_refl. repeat split; [constructor; auto; constructor|intuition..].
  - inversion N as [|? ? NI ND]; subst. specialize (IH ND). destruct IH as (I1 & I2 & I3).
    destruct (Z.eqb_spec (p_slot x) (p_slot p)) as [E|E].
    + assert (H : has_slot (p_slot p) l = false).
      { destruct (has_slot (p_slot p) l) eqn:H; auto. apply has_slot_ok in H. rewrite <- E in H. contradiction. }
      rewrite H. cbn. rewrite Z.eqb_refl. rewrite <- E. repeat split; [constructor; auto|intuition..].
    + cbn. destruct (Z.eqb_spec (p_slot x) (p_slot p)); [contradiction|]. split; auto. split.
      * constructor; auto. rewrite I3. intros [H|H]; contradiction.
      * intros y. rewrite I3. intuition.
Qed.

(** ** After disconnecting *)

Lemma quiet_step s o s' ev : step s o = Ret (s', ev) -> wants s = false -> timer s = None -> ~ is_connect o ->
  wants s' = false /\ timer s' = None /\ tried ev = [] /\ no_start ev.
Proof.
  intros H W T N.
  assert (NS : no_start []) by (intros ? []).
  assert (NS1 : forall x, (forall p, x <> Start p) -> no_start [x]) by (intros x M p [Hx|[]]; exact (M p Hx)).
  destruct o; cbn [step] in H; try (exfalso; apply N; exact I).
  - injection H as <- <-. cbn. destruct (ws s); auto. repeat split; auto. apply NS1. discriminate.
  - unfold confirm in H. destruct (active_slot s) as [a|]; [|discriminate]. cbn [bind] in H. revert H.
    set (s1 := match get_profile s a with Some _ => _ | None => s end). intros H.
    destruct (check_cache (remove_below s1 e)) as [x|] eqn:C; [|discriminate]. injection H as <- <-.
    assert (W1 : wants s1 = wants s /\ timer s1 = timer s) by (unfold s1; destruct (get_profile s a); [destruct (w_level e)|]; auto).
    clearbody s1.
    assert (Y : wants x = wants s1 /\ timer x = timer s1).
    { revert C. unfold check_cache. destruct (_ =? _); [intros [= <-]; auto|].
      destruct (active_slot _); [|discriminate]. cbn [bind]. match goal with |- context [index_of ?p ?b] => destruct (index_of p b) end.
      - intros [= <-]. auto.
      - match goal with |- context [next_slot ?p ?b] => destruct (next_slot p b) end; [|discriminate]. intros [= <-]. auto. }
    repeat split; try apply NS; intuition congruence.
  - unfold on_connected in H. destruct (active_slot s) as [a|]; [|discriminate]. injection H as <- <-. cbn.
    destruct (get_profile s a); repeat split; auto. apply NS1. discriminate.
  - unfold on_disconnected in H. destruct (active_slot s) as [a|]; [|discriminate]. injection H as <- <-. cbn.
    destruct (get_profile s a); repeat split; auto. apply NS1. discriminate.
  - unfold on_stopped in H. destruct (active_slot s) as [a|]; [|discriminate]. injection H as <- <-. rewrite W. auto.
  - unfold on_timer in H. rewrite T in H. injection H as <- <-. auto.
  - unfold on_network_disconnected in H. destruct (active_slot s) as [a|]; [|discriminate]. cbn [bind] in H.
    destruct (get_profile s a) as [p|]; injection H as <- <-; auto.
    destruct (_ && _); repeat split; auto. apply NS1. discriminate.
  - injection H as <- <-. destruct (ws s); repeat split; auto. apply NS1. discriminate.
  - unfold refresh_options in H. destruct (active_slot s) as [a|]; [|discriminate]. cbn [bind] in H.
    destruct (get_profile s a) as [p|]; [|discriminate]. injection H as <- <-.
    destruct (_ && _); repeat split; auto. apply NS1. discriminate.
  - injection H as <- <-. unfold set_network_profile. destruct valid as [v|]; auto.
    destruct (p_level p <? dm_level s); auto. destruct v; auto. cbn [negb]. destruct (w_profiles e); auto.
  - unfold set_priority in H. destruct (validate_slots _ _ _ _ _) as [b|]; [|discriminate]. cbn [bind] in H.
    destruct (b && w_priority e); injection H as <- <-; auto.
  - destruct (restart s) as [x|] eqn:R; [|discriminate]. injection H as <- <-. unfold restart, construct in R.
    destruct (negb _ && _); [discriminate|]. destruct (parse_slots _); [|discriminate]. injection R as <-. auto.
Qed.

Lemma tried_app a b : tried (a ++ b) = (tried a ++ tried b)%list.
Proof. induction a as [|[] a IH]; cbn; auto. f_equal. auto. Qed.

Lemma quiet_run : forall l s s' ev, run s l = Ret (s', ev) -> wants s = false -> timer s = None -> (forall o, In o l -> ~ is_connect o) ->
  tried ev = [] /\ no_start ev.
Proof.
  induction l as [|o l IH]; intros s s' ev R W T N.
  - injection R as <- <-. split; [reflexivity|]. intros ? [].
  - destruct (run_cons _ _ _ _ R) as (s1 & e1 & s2 & e2 & S & R2 & [= -> ->]).
    destruct (quiet_step _ _ _ _ S W T (N o (or_introl eq_refl))) as (W1 & T1 & A1 & B1).
    destruct (IH _ _ _ R2 W1 T1) as [A2 B2]; [intros; apply N; cbn; auto|].
    rewrite tried_app, A1, A2. split; auto. intros p I. apply in_app_or in I. destruct I as [I|I]; [exact (B1 p I)|exact (B2 p I)].
Qed.
