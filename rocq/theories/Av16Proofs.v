(** Proofs about the availability of connectors. *)
From Coq Require Import ZArith List Bool Lia.
From Verif Require Import Av16Model Av16Spec.
Import ListNotations.
Local Open Scope list_scope.
Local Open Scope Z_scope.

Lemma in_upto n d : In d (upto n) <-> connector n d.
Proof.
  unfold upto, connector. rewrite in_map_iff. split.
  - intros (k & <- & I). apply in_seq in I. lia.
  - intros H. exists (Z.to_nat d). split; [lia |]. apply in_seq. lia.
Qed.
Lemma upto_b n d : existsb (Z.eqb d) (upto n) = true <-> connector n d.
Proof.
  rewrite existsb_exists, <- in_upto. split.
  - intros (x & I & E). apply Z.eqb_eq in E. now subst.
  - intros I. exists d. split; [auto | apply Z.eqb_refl].
Qed.
Lemma set_same {A} (f : Z -> option A) c x : set f c x c = x.
Proof. unfold set. now rewrite Z.eqb_refl. Qed.
Lemma set_other {A} (f : Z -> option A) c x d : d <> c -> set f c x d = f d.
Proof. unfold set. intros H. apply Z.eqb_neq in H. now rewrite H. Qed.
Lemma command_eq a c : command a c = commands a c.
Proof. destruct a, c; reflexivity. Qed.

Lemma execute_spec cs a p : forall d, exists d', execute cs a p d = (d', flat_map (commands a) cs) /\
  forall c, d' c = if p && existsb (Z.eqb c) cs then Some a else d c.
Proof.
  induction cs as [ | x cs IH]; intros d.
  - exists d. split; [reflexivity |]. intros c. cbn. now rewrite andb_false_r.
  - cbn [execute]. destruct (IH (if p then set d x (Some a) else d)) as (d' & E & H). rewrite E. exists d'. split.
    + cbn [flat_map]. now rewrite command_eq.
    + intros c. rewrite H. cbn [existsb]. destruct p; cbn [andb]; auto.
      destruct (existsb (Z.eqb c) cs); [now rewrite orb_true_r |]. rewrite orb_false_r. unfold set. reflexivity.
Qed.

Lemma sort_spec cs t busy : forall m m' now later, sort cs t busy m = (m', now, later) ->
  now = filter (fun c => negb (busy c)) cs /\ later = existsb busy cs /\
  forall d, m' d = if existsb (Z.eqb d) cs && busy d then Some (t, true) else m d.
Proof.
  induction cs as [ | x cs IH]; intros m m' now later E; cbn [sort] in E.
  - inversion E; subst. repeat split.
  - destruct (busy x) eqn:B.
    + destruct (sort cs t busy (set m x (Some (t, true)))) as [[m1 n1] l1] eqn:S. inversion E; subst. clear E.
      destruct (IH _ _ _ _ S) as (A1 & A2 & A3). repeat split.
      * cbn. now rewrite B.
      * cbn. now rewrite B.
      * intros d. rewrite A3. cbn [existsb]. destruct (existsb (Z.eqb d) cs && busy d) eqn:X.
        -- apply andb_true_iff in X. destruct X as (-> & ->). now rewrite orb_true_r.
        -- unfold set. destruct (d =? x) eqn:D; cbn [orb andb].
           ++ apply Z.eqb_eq in D. subst. now rewrite B.
           ++ now rewrite X.
    + destruct (sort cs t busy m) as [[m1 n1] l1] eqn:S. inversion E; subst. clear E.
      destruct (IH _ _ _ _ S) as (A1 & A2 & A3). repeat split.
      * cbn. rewrite B. cbn. now f_equal.
      * cbn. now rewrite B.
      * intros d. rewrite A3. cbn [existsb]. destruct (d =? x) eqn:D; cbn [orb]; auto.
        apply Z.eqb_eq in D. subst. rewrite B. now rewrite !andb_false_r.
Qed.

(** The connectors a request is sorted for. *)
Definition targets (n : nat) (c : Z) : list Z := if c =? 0 then upto n else [c].
Lemma targets_b n c d : (c <=? Z.of_nat n) && (0 <=? c) = true -> existsb (Z.eqb d) (targets n c) = true <-> addresses n c d /\ 1 <= d.
Proof.
  intros R. apply andb_true_iff in R. destruct R as (R1 & R2). apply Z.leb_le in R1, R2. unfold targets, addresses.
  destruct (c =? 0) eqn:C.
  - apply Z.eqb_eq in C. subst. rewrite upto_b. unfold connector. lia.
  - apply Z.eqb_neq in C. cbn. rewrite orb_false_r, Z.eqb_eq. unfold connector. lia.
Qed.

Lemma change_spec n s c t busy : (c <=? Z.of_nat n) && (0 <=? c) = true -> exists s',
  change n s c t busy = (s', OAnswer (if existsb busy (targets n c) then Scheduled else Accepted) ::
    flat_map (commands t) ((if c =? 0 then [0] else []) ++ filter (fun d => negb (busy d)) (targets n c))) /\
  pending s' = pending s /\ st_plain s' = st_plain s /\ st_signed s' = st_signed s /\
  (forall d, q s' d = if existsb (Z.eqb d) (targets n c) && busy d then Some (t, true) else q s d) /\
  (forall d, db s' d = if existsb (Z.eqb d) ((if c =? 0 then [0] else []) ++ filter (fun d => negb (busy d)) (targets n c)) then Some t
                       else match q s' d with Some (a, _) => Some a | None => db s d end).
Proof.
  intros R. unfold change. rewrite R. fold (targets n c).
  destruct (sort (targets n c) t busy (q s)) as [[m now] later] eqn:S. destruct (sort_spec _ _ _ _ _ _ _ S) as (-> & -> & M).
  replace (if c =? 0 then 0 :: filter (fun c0 => negb (busy c0)) (targets n c) else filter (fun c0 => negb (busy c0)) (targets n c))
    with ((if c =? 0 then [0] else []) ++ filter (fun d => negb (busy d)) (targets n c)) by (destruct (c =? 0); reflexivity).
  destruct (execute_spec ((if c =? 0 then [0] else []) ++ filter (fun d => negb (busy d)) (targets n c)) t true (write_all m (db s))) as (d' & E & D).
  rewrite E. eexists. split; [reflexivity |]. cbn [pending st_plain st_signed q db]. repeat split; auto.
Qed.
Lemma change_out n s c t busy : (c <=? Z.of_nat n) && (0 <=? c) = false -> change n s c t busy = (s, [OAnswer Rejected]).
Proof. intros R. unfold change. now rewrite R. Qed.

Lemma queued_spec s c : exists s' l, execute_queued s c = (s', l) /\
  pending s' = pending s /\ st_plain s' = st_plain s /\ st_signed s' = st_signed s /\
  (forall d, q s' d = if d =? c then None else q s d) /\
  l = match q s c with Some (a, _) => commands a c | None => [] end /\
  (forall d, db s' d = match q s c with Some (a, true) => if d =? c then Some a else db s d | _ => db s d end).
Proof.
  unfold execute_queued. destruct (q s c) as [[a p] | ] eqn:Q.
  - destruct (execute_spec [c] a p (db s)) as (d' & E & D). rewrite E. do 2 eexists. split; [reflexivity |].
    cbn [pending st_plain st_signed q db]. repeat apply conj; try reflexivity.
    + cbn. now rewrite app_nil_r.
    + intros d. rewrite D. destruct p; cbn; auto. now rewrite orb_false_r.
  - do 2 eexists. split; [reflexivity |]. repeat apply conj; try reflexivity. intros d. destruct (d =? c) eqn:E; auto. apply Z.eqb_eq in E. now subst.
Qed.

Definition taken (n : nat) (active : Z -> bool) (d : Z) : bool := existsb (Z.eqb d) (upto n) && active d.
Lemma wave_eq n active :
  map ODisable (filter (fun c => negb (active c)) (upto n)) ++ (if existsb active (upto n) then [] else [OAll]) = wave n active.
Proof.
  unfold wave. fold (in_order n). change (upto n) with (in_order n). f_equal.
  replace (existsb active (in_order n)) with (negb (forallb (fun c => negb (active c)) (in_order n))).
  - now destruct (forallb _ _).
  - induction (in_order n) as [ | x l IH]; cbn; auto. rewrite negb_andb, negb_involutive. now rewrite IH.
Qed.
Lemma notify_spec n signed st active s : exists s', notify n signed st active s =
    (s', OFw signed st :: if pending_after signed st (pending s) then wave n active else []) /\
  pending s' = pending_after signed st (pending s) /\ db s' = db s /\
  st_plain s' = (if signed then st_plain s else st) /\ st_signed s' = (if signed then st else st_signed s) /\
  (forall d, q s' d = if pending_after signed st (pending s) && taken n active d then Some (Inoperative, false) else q s d).
Proof.
  unfold notify. cbn [pending]. destruct (pending_after signed st (pending s)) eqn:P.
  - unfold all_unavailable. rewrite wave_eq. eexists. split; [reflexivity |]. repeat split.
  - eexists. split; [reflexivity |]. repeat split.
Qed.

(** A step that is not a request, in one formula. *)
Definition pays_b (o : op) (d : Z) : bool := match o with Ended c => d =? c | StopConf (Some c) _ => d =? c | _ => false end.
Lemma pays_bi o d : pays_b o d = true <-> pays o d.
Proof.
  unfold pays. destruct o as [ | c | [c | ] active | | | ]; cbn; try (split; [discriminate | intros [E | (a & E)]; discriminate]).
  - rewrite Z.eqb_eq. split; [intros ->; auto | intros [E | (a & E)]; congruence].
  - rewrite Z.eqb_eq. split; [intros ->; eauto | intros [E | (a & E)]; congruence].
Qed.
Lemma plain_iff st : plain st = true <-> In st plain_states.
Proof. destruct st; cbn; intuition discriminate. Qed.
Lemma over_iff st : is_over st = true <-> In st last_states.
Proof. destruct st; cbn; intuition discriminate. Qed.

Definition claims_b (o : op) : option (Z -> bool) :=
  match o with
  | StopConf _ active => Some active
  | Firmware signed st active => if signed || plain st then Some active else None
  | TriggerFw _ active => Some active
  | _ => None
  end.
Lemma claims_bi o active : claims_b o = Some active <-> claims o active.
Proof.
  split.
  - destruct o as [ | c | c a | signed st a | signed a | ]; cbn; try discriminate.
    + intros E. inversion E; subst. constructor.
    + destruct signed; cbn.
      * intros E. inversion E; subst. constructor.
      * destruct (plain st) eqn:P; try discriminate. intros E. inversion E; subst. constructor. now apply plain_iff.
    + intros E. inversion E; subst. constructor.
  - intros C. inversion C; subst; cbn; auto. apply plain_iff in H. now rewrite H.
Qed.
Lemma claims_fun o a b : claims o a -> claims o b -> a = b.
Proof. rewrite <- !claims_bi. congruence. Qed.

(** The queue after a step. *)
Lemma step_q n s o d : (forall c t busy, o <> Change c t busy) -> o <> Boot ->
  q (fst (step n s o)) d =
    match claims_b o with
    | Some active => if pending (fst (step n s o)) && taken n active d then Some (Inoperative, false) else if pays_b o d then None else q s d
    | None => if pays_b o d then None else q s d
    end.
Proof.
  intros NC NB. destruct o as [c t busy | c | c a | signed st a | signed a | ]; [exfalso; eapply NC; reflexivity | | | | | congruence].
  - cbn [step claims_b pays_b]. destruct (queued_spec s c) as (s' & l & E & _ & _ & _ & Q & _). rewrite E. cbn [fst]. apply Q.
  - cbn [step claims_b pays_b]. destruct c as [c | ].
    + destruct (queued_spec s c) as (s' & l & E & P & _ & _ & Q & _). rewrite E. destruct (pending s') eqn:P'; cbn [fst all_unavailable pending q]; rewrite ?P'; cbn [andb].
      * unfold taken. destruct (existsb (Z.eqb d) (upto n) && a d); auto.
      * apply Q.
    + destruct (pending s) eqn:P'; cbn [fst all_unavailable pending q]; rewrite ?P'; cbn [andb]; auto.
  - cbn [step claims_b pays_b]. unfold firmware. destruct (signed || plain st).
    + destruct (notify_spec n signed st a s) as (s' & E & P & _ & _ & _ & Q). rewrite E. cbn [fst].
      destruct (is_over st); cbn [fst q pending]; rewrite Q, P; reflexivity.
    + cbn [fst]. destruct (is_over st); reflexivity.
  - cbn [step claims_b pays_b]. destruct (notify_spec n signed (if signed then st_signed s else st_plain s) a s) as (s' & E & P & _ & _ & _ & Q). rewrite E. cbn [fst].
    rewrite Q, P. reflexivity.
Qed.
Lemma step_pending n s o : pending (fst (step n s o)) =
  match o with
  | Firmware signed st _ => if signed || plain st then pending_after signed st (pending s) else pending s
  | TriggerFw signed _ => pending_after signed (if signed then st_signed s else st_plain s) (pending s)
  | Boot => false
  | _ => pending s
  end.
Proof.
  destruct o as [c t busy | c | c a | signed st a | signed a | ]; cbn [step]; auto.
  - destruct ((c <=? Z.of_nat n) && (0 <=? c)) eqn:R.
    + destruct (change_spec n s c t busy R) as (s' & E & P & _). now rewrite E.
    + now rewrite change_out by auto.
  - destruct (queued_spec s c) as (s' & l & E & P & _). now rewrite E.
  - destruct c as [c | ].
    + destruct (queued_spec s c) as (s' & l & E & P & _). rewrite E. destruct (pending s') eqn:P'; cbn; congruence.
    + destruct (pending s) eqn:P'; cbn; congruence.
  - unfold firmware. destruct (signed || plain st).
    + destruct (notify_spec n signed st a s) as (s' & E & P & _). rewrite E. destruct (is_over st); cbn; auto.
    + destruct (is_over st); cbn; auto.
  - destruct (notify_spec n signed (if signed then st_signed s else st_plain s) a s) as (s' & E & P & _). now rewrite E.
Qed.
Definition status (s : av) (signed : bool) : fw := if signed then st_signed s else st_plain s.
Lemma step_status n s o g : status (fst (step n s o)) g =
  match o with
  | Firmware signed st _ => if eqb signed g then if is_over st then Idle else if signed || plain st then st else status s g else status s g
  | Boot => Idle
  | _ => status s g
  end.
Proof.
  destruct o as [c t busy | c | c a | signed st a | signed a | ]; cbn [step]; auto.
  - destruct ((c <=? Z.of_nat n) && (0 <=? c)) eqn:R.
    + destruct (change_spec n s c t busy R) as (s' & E & _ & A & B & _). rewrite E. unfold status. cbn. now rewrite A, B.
    + now rewrite change_out by auto.
  - destruct (queued_spec s c) as (s' & l & E & _ & A & B & _). rewrite E. unfold status. cbn. now rewrite A, B.
  - destruct c as [c | ].
    + destruct (queued_spec s c) as (s' & l & E & _ & A & B & _). rewrite E. unfold status. destruct (pending s'); cbn; now rewrite A, B.
    + unfold status. now destruct (pending s).
  - unfold firmware. destruct (signed || plain st) eqn:SP.
    + destruct (notify_spec n signed st a s) as (s' & E & _ & _ & A & B & _). rewrite E. unfold status. destruct (is_over st), signed, g; cbn; rewrite ?A, ?B; auto.
    + unfold status. destruct (is_over st), signed, g; cbn; auto.
  - destruct (notify_spec n signed (if signed then st_signed s else st_plain s) a s) as (s' & E & _ & _ & A & B & _). rewrite E. unfold status. cbn. rewrite A, B. destruct signed, g; auto.
  - now destruct g.
Qed.

Lemma told_iff n d0 s h : happened n d0 s h -> forall g st, told g h st <-> status s g = st.
Proof.
  induction 1 as [ | s h o H IH]; intros g st.
  - unfold status. cbn. split; [intros T; inversion T; now destruct g | intros <-; destruct g; constructor].
  - rewrite step_status. split.
    + intros T. inversion T; subst.
      * reflexivity.
      * rewrite eqb_reflx. destruct (is_over st) eqn:O; [apply over_iff in O; contradiction |].
        destruct H2 as [-> | P]; auto. apply plain_iff in P. now rewrite P, orb_true_r.
      * rewrite eqb_reflx. apply over_iff in H3. now rewrite H3.
      * apply IH in H2. destruct o as [ | | | signed st' a | | ]; auto; try congruence.
        destruct (eqb signed g) eqn:E; auto. apply eqb_prop in E. subst. destruct (H5 _ _ eq_refl) as (-> & NP & NO).
        destruct (is_over st') eqn:O; [apply over_iff in O; contradiction |]. destruct (plain st') eqn:P; [apply plain_iff in P; contradiction |]. auto.
    + destruct o as [ | | | signed st' a | | ]; try (intros E; apply IH in E; apply to_same; auto; discriminate).
      * destruct (eqb signed g) eqn:E.
        -- apply eqb_prop in E. subst. destruct (is_over st') eqn:O.
           ++ intros <-. apply to_over. now apply over_iff.
           ++ assert (NO : ~ In st' last_states) by (rewrite <- over_iff, O; discriminate).
              destruct (g || plain st') eqn:P.
              ** intros <-. apply to_now; auto. apply orb_true_iff in P. rewrite <- plain_iff. tauto.
              ** intros E. apply IH in E. apply to_same; auto; try discriminate. intros st'' a' X. inversion X; subst.
                 apply orb_false_iff in P. destruct P as (-> & P). repeat split; auto. rewrite <- plain_iff, P. discriminate.
        -- intros X. apply IH in X. apply to_same; auto; try discriminate. intros st'' a' Y. inversion Y; subst.
           rewrite eqb_reflx in E. discriminate.
      * intros <-. constructor.
Qed.

Lemma waits_iff n d0 s h : happened n d0 s h -> (waits h <-> pending s = true).
Proof.
  induction 1 as [ | s h o H IH].
  - cbn. split; [intros W; inversion W | discriminate].
  - rewrite step_pending. split.
    + intros W. inversion W; subst; auto.
      * apply (told_iff _ _ _ _ H) in H1. unfold status in H1. now rewrite H1.
      * apply (told_iff _ _ _ _ H) in H1. unfold status in H1. now rewrite H1.
      * apply IH in H2. destruct o as [ | | | signed st a | signed a | ]; auto; try congruence.
        -- destruct (H4 a) as (X1 & X2 & X3 & X4 & X5 & X6). rewrite H2. destruct signed, st; cbn; auto; congruence.
        -- rewrite H2. pose proof (proj2 (told_iff _ _ _ _ H signed _) eq_refl) as T. unfold status in T.
           (* a state that has failed is never told again *)
           assert (NF : forall st, told signed h st -> ~ In st last_states).
           { clear. induction h as [ | o h IH]; intros st T; inversion T; subst; cbn; auto; try (intuition discriminate). now apply IH. }
           specialize (NF _ T). destruct signed; destruct (st_signed s), (st_plain s); cbn in *; auto; tauto.
    + destruct o as [ | | | signed st a | signed a | ]; try discriminate; try (intros E; apply IH in E; apply w_same; auto; try discriminate; intros; repeat split; discriminate).
      * destruct (signed || plain st) eqn:SP.
        -- destruct signed.
           ++ destruct st; cbn; try discriminate; try (intros E; apply IH in E; apply w_same; auto; try discriminate; intros; repeat split; discriminate).
              intros _. constructor.
           ++ destruct st; cbn; try discriminate; try (intros E; apply IH in E; apply w_same; auto; try discriminate; intros; repeat split; discriminate).
              intros _. constructor.
        -- intros E. apply IH in E. apply orb_false_iff in SP. destruct SP as (-> & P). apply w_same; auto; try discriminate.
           intros a'. repeat split; try discriminate; intros X; inversion X; subst; discriminate.
      * intros E. destruct (pending s) eqn:P.
        -- pose proof (proj2 IH eq_refl) as W. apply w_same; auto; try discriminate. intros; repeat split; discriminate.
        -- destruct signed.
           ++ destruct (st_signed s) eqn:T; cbn in E; try discriminate. apply w_again_signed. apply (told_iff _ _ _ _ H). unfold status. now rewrite T.
           ++ destruct (st_plain s) eqn:T; cbn in E; try discriminate. apply w_again_plain. apply (told_iff _ _ _ _ H). unfold status. now rewrite T.
Qed.

Lemma taken_iff n active d : taken n active d = true <-> connector n d /\ active d = true.
Proof. unfold taken. now rewrite andb_true_iff, upto_b. Qed.
Lemma addr_range n c d : addresses n c d -> (c <=? Z.of_nat n) && (0 <=? c) = true.
Proof. unfold addresses, connector. intros H. apply andb_true_iff. rewrite !Z.leb_le. lia. Qed.

(** The induction step for all but requests. *)
Lemma owed_other n h o d a p pen (Q : option (avail * bool)) :
  (forall c t busy, o <> Change c t busy) -> o <> Boot -> (waits (o :: h) <-> pen = true) ->
  (forall a p, owed n h d a p <-> Q = Some (a, p)) ->
  (owed n (o :: h) d a p <->
    match claims_b o with
    | Some active => if pen && taken n active d then Some (Inoperative, false) else if pays_b o d then None else Q
    | None => if pays_b o d then None else Q
    end = Some (a, p)).
Proof.
  intros NC NB W IH.
  assert (KEEP : (forall active, claims o active -> waits (o :: h) -> connector n d -> active d = false) ->
    (owed n (o :: h) d a p <-> (if pays_b o d then None else Q) = Some (a, p))).
  { intros F. split.
    - intros O. remember (o :: h) as hh eqn:EH. destruct O as [c e t busy h' A L B | o' act h' e Cl Wt Co Ac | o' h' e t pp O NP NB' _ _]; inversion EH; subst.
      + exfalso. eapply NC; reflexivity.
      + rewrite (F _ Cl Wt Co) in Ac. discriminate.
      + destruct (pays_b o e) eqn:PB; [apply pays_bi in PB; contradiction | now apply IH].
    - destruct (pays_b o d) eqn:PB; [discriminate |]. intros X. apply IH in X. apply ow_same; auto.
      + rewrite <- pays_bi, PB. discriminate.
      + intros c t busy E. exfalso. eapply NC; exact E. }
  destruct (claims_b o) as [active | ] eqn:C.
  - destruct (pen && taken n active d) eqn:T.
    + apply andb_true_iff in T. destruct T as (T1 & T2). apply W in T1. apply taken_iff in T2. destruct T2 as (T2 & T3). apply claims_bi in C. split.
      * intros O. remember (o :: h) as hh eqn:EH. destruct O as [c e t busy h' A L B | o' act h' e Cl Wt Co Ac | o' h' e t pp O NP NB' _ F]; inversion EH; subst.
        -- exfalso. eapply NC; reflexivity.
        -- reflexivity.
        -- rewrite (F _ C T1 T2) in T3. discriminate.
      * intros X. inversion X; subst. eapply ow_firmware; eauto.
    + apply KEEP. intros act Cl Wt Co. apply claims_bi in Cl. rewrite C in Cl. inversion Cl; subst act.
      destruct (active d) eqn:AD; auto. apply W in Wt. rewrite Wt in T. cbn in T.
      pose proof (proj2 (taken_iff n active d) (conj Co AD)) as K. congruence.
  - apply KEEP. intros act Cl. apply claims_bi in Cl. congruence.
Qed.

(** What is owed is what is queued. *)
Lemma owed_iff n d0 s h : happened n d0 s h -> forall d a p, owed n h d a p <-> q s d = Some (a, p).
Proof.
  induction 1 as [ | s h o H IH]; intros d a p.
  - cbn. split; [intros O; inversion O | discriminate].
  - destruct o as [c t busy | c | c act | signed st act | signed act | ] eqn:EO.
    { (* a request *)
      cbn [step]. destruct ((c <=? Z.of_nat n) && (0 <=? c)) eqn:R.
      - destruct (change_spec n s c t busy R) as (s' & E & _ & _ & _ & Q & _). rewrite E. cbn [fst]. rewrite Q.
        destruct (existsb (Z.eqb d) (targets n c) && busy d) eqn:T.
        + apply andb_true_iff in T. destruct T as (T & B). apply (targets_b n c d R) in T. destruct T as (A & L). split.
          * intros O. inversion O; subst; auto.
            -- match goal with X : claims _ _ |- _ => inversion X end.
            -- match goal with X : forall c t busy, _ -> _ -> _ |- _ => rewrite (X _ _ _ eq_refl A) in B end. discriminate.
          * intros X. inversion X; subst. now apply ow_request.
        + split.
          * intros O. inversion O; subst.
            -- exfalso. assert (Y : existsb (Z.eqb d) (targets n c) = true) by (apply targets_b; auto). rewrite Y in T. cbn in T. congruence.
            -- match goal with X : claims _ _ |- _ => inversion X end.
            -- now apply IH.
          * intros X. apply IH in X. apply ow_same; auto; try discriminate.
            -- intros [Y | (? & Y)]; discriminate.
            -- intros c' t' b' Y A. inversion Y; subst. destruct (b' d) eqn:B; auto.
               assert (C : connector n d). { clear -X. induction X; auto. unfold addresses, connector in *. lia. }
               assert (Z : existsb (Z.eqb d) (targets n c') = true) by (apply targets_b; auto; split; auto; destruct C; lia).
               rewrite Z in T. discriminate.
            -- intros active Y. inversion Y.
      - rewrite change_out by auto. cbn [fst]. rewrite <- IH. split.
        + intros O. inversion O; subst; auto.
          * match goal with X : addresses _ _ _ |- _ => apply addr_range in X end. congruence.
          * match goal with X : claims _ _ |- _ => inversion X end.
        + intros X. apply ow_same; auto; try discriminate.
          * intros [Y | (? & Y)]; discriminate.
          * intros c' t' b' Y A. inversion Y; subst. apply addr_range in A. congruence.
          * intros active Y. inversion Y. }
    5:{ cbn. split; [ | discriminate]. intros O. inversion O; subst; try congruence. match goal with X : claims _ _ |- _ => inversion X end. }
    all: rewrite <- EO; assert (NC : forall c t busy, o <> Change c t busy) by (subst; discriminate);
      assert (NB : o <> Boot) by (subst; discriminate);
      rewrite (step_q n s o d NC NB); apply owed_other; auto;
      exact (waits_iff n d0 _ _ (hap_step n d0 s h o H)).
Qed.

Lemma owed_connector n h d a p : owed n h d a p -> connector n d.
Proof. induction 1; auto. unfold addresses, connector in *. lia. Qed.

(** Under [tidy], what is owed lastingly is what is wanted. *)
Lemma wanted_change n d0 c t busy h d : addresses n c d -> wanted n d0 (Change c t busy :: h) d = Some t.
Proof.
  unfold addresses, connector. intros A. cbn [wanted].
  assert (((c =? 0) || (c =? d)) && (0 <=? d) && (d <=? Z.of_nat n) = true) as ->; auto.
  rewrite !andb_true_iff, orb_true_iff, !Z.leb_le, !Z.eqb_eq. lia.
Qed.
Lemma wanted_skip n d0 o h d : (forall c t busy, o = Change c t busy -> ~ addresses n c d) -> wanted n d0 (o :: h) d = wanted n d0 h d.
Proof.
  intros N. destruct o as [c t busy | | | | | ]; auto. cbn [wanted].
  destruct (((c =? 0) || (c =? d)) && (0 <=? d) && (d <=? Z.of_nat n)) eqn:E; auto.
  exfalso. apply (N _ _ _ eq_refl). rewrite !andb_true_iff, orb_true_iff, !Z.leb_le, !Z.eqb_eq in E. unfold addresses, connector.
  destruct E as (([-> | ->] & E1) & E2); [now left |]. destruct (Z.eq_dec d 0); [left; lia | right; lia].
Qed.
Lemma owed_wanted n d0 h : tidy n h -> forall d a, owed n h d a true -> wanted n d0 h d = Some a.
Proof.
  induction 1 as [ | c t busy h T IH Hp Hb | o h T IH NC]; intros d a O.
  - inversion O.
  - inversion O; subst.
    + now apply wanted_change.
    + rewrite wanted_skip; [now apply IH |]. intros c' t' b' E A. inversion E; subst.
      match goal with X : forall c t busy, _ -> _ -> _ |- _ => pose proof (X _ _ _ eq_refl A) as F end.
      match goal with X : owed n h d a true |- _ => rewrite (Hb _ _ _ A X) in F end. discriminate.
  - rewrite wanted_skip by (intros c t b E; exfalso; eapply NC; exact E).
    inversion O; subst; [exfalso; eapply NC; reflexivity | now apply IH].
Qed.

Lemma step_db n s o d : (forall c t busy, o <> Change c t busy) ->
  db (fst (step n s o)) d = match q s d with Some (a, true) => if pays_b o d then Some a else db s d | _ => db s d end.
Proof.
  intros NC.
  assert (S : forall x, x = match q s d with Some (a, true) => if false then Some a else x | _ => x end) by (intros x; destruct (q s d) as [[a [ | ]] | ]; auto).
  destruct o as [c t busy | c | c a | signed st a | signed a | ]; cbn [step pays_b]; auto.
  - exfalso. eapply NC; reflexivity.
  - destruct (queued_spec s c) as (s' & l & E & _ & _ & _ & _ & _ & D). rewrite E. cbn [fst]. rewrite D.
    destruct (d =? c) eqn:DC; [apply Z.eqb_eq in DC; subst; reflexivity |].
    destruct (q s c) as [[x [ | ]] | ], (q s d) as [[y [ | ]] | ]; reflexivity.
  - destruct c as [c | ].
    + destruct (queued_spec s c) as (s' & l & E & _ & _ & _ & _ & _ & D). rewrite E.
      assert (G : db s' d = match q s d with Some (x, true) => if d =? c then Some x else db s d | _ => db s d end).
      { rewrite D. destruct (d =? c) eqn:DC; [apply Z.eqb_eq in DC; subst; reflexivity |].
        destruct (q s c) as [[x [ | ]] | ], (q s d) as [[y [ | ]] | ]; reflexivity. }
      destruct (pending s'); exact G.
    + destruct (pending s); cbn; auto.
  - unfold firmware. destruct (signed || plain st).
    + destruct (notify_spec n signed st a s) as (s' & E & _ & DB & _). rewrite E. destruct (is_over st); cbn; rewrite DB; auto.
    + destruct (is_over st); cbn; auto.
  - destruct (notify_spec n signed (if signed then st_signed s else st_plain s) a s) as (s' & E & _ & DB & _). rewrite E. cbn. rewrite DB. auto.
Qed.

Lemma db_wanted n d0 s h : happened n d0 s h -> tidy n h -> forall d, db s d = wanted n d0 h d.
Proof.
  induction 1 as [ | s h o H IH]; intros T d; [reflexivity |].
  inversion T; subst.
  - specialize (IH H2). cbn [step]. pose proof (owed_wanted n d0 _ T) as OW.
    destruct ((c <=? Z.of_nat n) && (0 <=? c)) eqn:R.
    + pose proof (owed_iff n d0 _ _ (hap_step n d0 s h (Change c t busy) H)) as OI. cbn [step] in OI.
      destruct (change_spec n s c t busy R) as (s' & E & _ & _ & _ & Q & D). rewrite E in *. clear E. cbn [fst] in *. rewrite D.
      destruct (existsb _ _) eqn:X.
      * symmetry. apply wanted_change. rewrite existsb_app, orb_true_iff in X. destruct X as [X | X].
        -- destruct (c =? 0) eqn:C; [ | discriminate]. cbn in X. rewrite orb_false_r in X. apply Z.eqb_eq in C, X. subst. left. lia.
        -- apply existsb_exists in X. destruct X as (y & I & Y). apply Z.eqb_eq in Y. subst y. apply filter_In in I. destruct I as (I & _).
           apply (targets_b n c d R). apply existsb_exists. exists d. split; [auto | apply Z.eqb_refl].
      * destruct (q s' d) as [[a p] | ] eqn:Q'.
        -- symmetry. apply OI in Q'. assert (p = true) as ->.
           { inversion Q'; subst; auto. match goal with X : claims _ _ |- _ => inversion X end. eauto. }
           now apply OW.
        -- rewrite IH. symmetry. apply wanted_skip. intros c' t' b' EQ A. inversion EQ; subst.
           rewrite existsb_app, orb_false_iff in X. destruct X as (X1 & X2).
           destruct (Z.eq_dec d 0) as [-> | ND].
           { destruct A as [(-> & _) | (-> & C)]; [discriminate | unfold connector in C; lia]. }
           assert (L : 1 <= d) by (unfold addresses, connector in A; lia).
           assert (TB : existsb (Z.eqb d) (targets n c') = true) by (apply targets_b; auto).
           rewrite Q, TB in Q'. cbn in Q'. destruct (b' d) eqn:B; [discriminate |].
           assert (F : existsb (Z.eqb d) (filter (fun d => negb (b' d)) (targets n c')) = true).
           { apply existsb_exists. exists d. split; [ | apply Z.eqb_refl]. apply filter_In. split; [ | now rewrite B].
             apply existsb_exists in TB. destruct TB as (y & I & Y). apply Z.eqb_eq in Y. now subst. }
           congruence.
    + rewrite change_out by auto. cbn [fst]. rewrite IH. symmetry. apply wanted_skip. intros c' t' b' EQ A. inversion EQ; subst.
      apply addr_range in A. congruence.
  - specialize (IH H2). rewrite step_db by auto. rewrite wanted_skip by (intros c t b EQ; exfalso; eapply H3; exact EQ).
    destruct (q s d) as [[a [ | ]] | ] eqn:Q; auto. destruct (pays_b o d); auto.
    apply (owed_iff n d0 _ _ H) in Q. symmetry. now apply owed_wanted.
Qed.
