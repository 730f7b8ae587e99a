(** Lemmas about variables and the settings that follow them. *)
From Coq Require Import ZArith List Bool Lia.
From Verif Require Import VcModel VcSpec.
Import ListNotations.
Local Open Scope list_scope.
Local Open Scope Z_scope.

Lemma same_spec a b : same a b = true <-> a = b.
Proof. unfold same. destruct (var_dec a b); split; intros; congruence. Qed.
Lemma same_refl a : same a a = true.
Proof. apply same_spec. reflexivity. Qed.
Lemma same_not a b : a <> b -> same a b = false.
Proof. intros N. unfold same. destruct (var_dec a b); congruence. Qed.

Definition store1 (f : var -> Z) (i : item) : var -> Z := if i_ok i && i_actual i then put f (i_var i) (i_value i) else f.
Fixpoint store (f : var -> Z) (l : list item) : var -> Z := match l with [] => f | i :: l' => store (store1 f i) l' end.

Lemma loop_fst : forall l f acc, fst (set_variables_loop f l acc) = store f l.
Proof. induction l as [|i l IH]; intros f acc; cbn; [reflexivity|]. apply IH. Qed.

Lemma put_result_new i : forall acc, (forall e, In e acc -> i_var (fst e) <> i_var i) -> put_result i acc = acc ++ [(i, i_ok i)].
Proof.
  induction acc as [|[k r] acc IH]; intros N; cbn; [reflexivity|].
  rewrite same_not by (apply (N (k, r)); left; reflexivity). rewrite IH; [reflexivity|]. intros e E. apply N. right. exact E.
Qed.

Definition res (l : list item) : list (item * bool) := map (fun i => (i, i_ok i)) l.

Lemma loop_snd : forall l f acc, NoDup (map i_var l) -> (forall e i, In e acc -> In i l -> i_var (fst e) <> i_var i) ->
  snd (set_variables_loop f l acc) = acc ++ res l.
Proof.
  induction l as [|i l IH]; intros f acc ND N; cbn; [rewrite app_nil_r; reflexivity|].
  inversion ND as [|x y NI ND']; subst. rewrite put_result_new by (intros e E; apply N; [exact E|left; reflexivity]).
  rewrite IH; auto.
  - rewrite <- app_assoc. reflexivity.
  - intros e j E J. apply in_app_iff in E. destruct E as [E|[<-|[]]].
    + apply N; [exact E|right; exact J].
    + cbn. intros X. apply NI. rewrite X. apply in_map. exact J.
Qed.

Lemma store_notin : forall l f v, (forall i, In i l -> takes i -> i_var i <> v) -> store f l v = f v.
Proof.
  induction l as [|i l IH]; intros f v N; cbn; [reflexivity|].
  rewrite IH by (intros j J; apply N; right; exact J). unfold store1.
  destruct (i_ok i && i_actual i) eqn:E; [|reflexivity]. apply andb_true_iff in E.
  unfold put. rewrite same_not; [reflexivity|]. intros X. apply (N i); [left; reflexivity|exact E|auto].
Qed.

Lemma store_in : forall l f i, NoDup (map i_var l) -> In i l -> takes i -> store f l (i_var i) = i_value i.
Proof.
  induction l as [|j l IH]; intros f i ND I T; [destruct I|]. inversion ND as [|x y NI ND']; subst. cbn.
  destruct I as [->|I]; [|apply IH; auto].
  rewrite store_notin.
  - unfold store1. destruct T as [T1 T2]. rewrite T1, T2. cbn. unfold put. rewrite same_refl. reflexivity.
  - intros k K _ X. apply NI. rewrite <- X. apply in_map. exact K.
Qed.

Lemma store_snoc : forall l f i, store f (l ++ [i]) = store1 (store f l) i.
Proof. induction l as [|j l IH]; intros f i; cbn; [reflexivity|]. apply IH. Qed.

Lemma store_stored : forall l f, Stored f l (store f l).
Proof.
  intros l f. induction l as [|i l IH] using rev_ind; [constructor; reflexivity|].
  rewrite store_snoc. unfold store1. destruct (i_ok i && i_actual i) eqn:E.
  - apply (stored_take _ _ _ _ _ IH).
    + apply andb_true_iff in E. exact E.
    + unfold put. rewrite same_refl. reflexivity.
    + intros v N. unfold put. rewrite same_not by exact N. reflexivity.
  - apply (stored_skip _ _ _ _ _ IH); [|reflexivity]. intros [T1 T2]. rewrite T1, T2 in E. discriminate.
Qed.

Ltac cases i := let v := fresh "w" in let a := fresh "a" in destruct i as [v a ? ?]; destruct a; [|cbn; auto]; destruct v; cbn.
Ltac sock := repeat match goal with
  | |- context [match socket ?s with _ => _ end] => destruct (socket s) eqn:?; cbn
  | |- context [profile ?s <? 3] => destruct (Z.ltb_spec (profile s) 3); cbn
  | |- context [if registered ?s then _ else _] => destruct (registered s) eqn:?; cbn
  | |- context [set_key _ _] => unfold set_key; cbn
  | |- context [update_options _] => unfold update_options; cbn
  end.

Lemma hvc_value s i : value (fst (handle_variable_changed s i)) = value s.
Proof. unfold handle_variable_changed. cases i; sock; reflexivity. Qed.
Lemma hvc_profile s i : profile (fst (handle_variable_changed s i)) = profile s.
Proof. unfold handle_variable_changed. cases i; sock; reflexivity. Qed.
Lemma hvc_registered s i : registered (fst (handle_variable_changed s i)) = registered s.
Proof. unfold handle_variable_changed. cases i; sock; congruence. Qed.
Lemma hvc_socket s i : (socket (fst (handle_variable_changed s i)) = None <-> socket s = None).
Proof. unfold handle_variable_changed. cases i; sock; split; congruence. Qed.

Lemma vc_cons s i r l : fst (variables_changed s ((i, r) :: l)) = fst (variables_changed (if r then fst (handle_variable_changed s i) else s) l).
Proof.
  cbn. destruct r; [destruct (handle_variable_changed s i) as [s' b]; cbn|];
    [destruct (variables_changed s' l)|destruct (variables_changed s l)]; reflexivity.
Qed.
Lemma vc_flag s i r l : snd (variables_changed s ((i, r) :: l)) =
  (if r then snd (handle_variable_changed s i) else false) || snd (variables_changed (if r then fst (handle_variable_changed s i) else s) l).
Proof.
  cbn. destruct r; [destruct (handle_variable_changed s i) as [s' b]; cbn|];
    [destruct (variables_changed s' l)|destruct (variables_changed s l)]; reflexivity.
Qed.

Lemma vc_keeps (P : station -> Prop) : (forall t i, P t -> P (fst (handle_variable_changed t i))) ->
  forall l t, P t -> P (fst (variables_changed t l)).
Proof.
  intros H l. induction l as [|[i r] l IH]; intros t Pt; [exact Pt|]. rewrite vc_cons. apply IH. destruct r; auto.
Qed.
Lemma vc_value l t : value (fst (variables_changed t l)) = value t.
Proof. apply (vc_keeps (fun u => value u = value t)); [|reflexivity]. intros u i E. rewrite hvc_value. exact E. Qed.
Lemma vc_profile l t : profile (fst (variables_changed t l)) = profile t.
Proof. apply (vc_keeps (fun u => profile u = profile t)); [|reflexivity]. intros u i E. rewrite hvc_profile. exact E. Qed.
Lemma vc_registered l t : registered (fst (variables_changed t l)) = registered t.
Proof. apply (vc_keeps (fun u => registered u = registered t)); [|reflexivity]. intros u i E. rewrite hvc_registered. exact E. Qed.

(** A setting that keeps to its variable [v] whenever a right entry is handled. *)
Lemma vc_follows (P : station -> Prop) (v : var) :
  (forall t i, (i_actual i = true -> value t (i_var i) = i_value i) -> P t -> P (fst (handle_variable_changed t i))) ->
  (forall t i, i_actual i = true -> value t (i_var i) = i_value i -> i_var i = v -> P (fst (handle_variable_changed t i))) ->
  forall l t, (forall i, In i l -> takes i -> value t (i_var i) = i_value i) ->
  (P t \/ exists i, In i l /\ takes i /\ i_var i = v) -> P (fst (variables_changed t (res l))).
Proof.
  intros K E l. induction l as [|i l IH]; intros t V H; cbn [res map].
  - destruct H as [H|(i & [] & _)]. exact H.
  - rewrite vc_cons. destruct (i_ok i) eqn:O.
    + apply IH.
      * intros j J T. rewrite hvc_value. apply V; [right; exact J|exact T].
      * destruct H as [H|(j & [<-|J] & T & X)].
        -- left. apply K; [|exact H]. intros A. apply V; [left; reflexivity|split; auto].
        -- left. destruct T as [T1 T2]. apply E; auto. apply V; [left; reflexivity|split; auto].
        -- right. exists j. auto.
    + apply IH; [intros j J; apply V; right; exact J|]. destruct H as [H|(j & [<-|J] & T & X)]; [left; exact H| |].
      * destruct T as [T1 _]. congruence.
      * right. exists j. auto.
Qed.

Lemma set_variables_eq s l : NoDup (map i_var l) ->
  set_variables s l = variables_changed (with_value s (store (value s) l)) (res l).
Proof.
  intros ND. unfold set_variables. pose proof (loop_fst l (value s) []) as A. pose proof (loop_snd l (value s) [] ND) as B.
  destruct (set_variables_loop (value s) l []) as [f r]. cbn in A, B. rewrite A, B; [reflexivity|]. intros e i [].
Qed.

Lemma set_value_of s l : value (fst (set_variables s l)) = store (value s) l.
Proof.
  unfold set_variables. pose proof (loop_fst l (value s) []) as A. destruct (set_variables_loop (value s) l []) as [f r].
  cbn in A. rewrite vc_value, A. reflexivity.
Qed.
Lemma set_profile_of s l : profile (fst (set_variables s l)) = profile s.
Proof. unfold set_variables. destruct (set_variables_loop (value s) l []) as [f r]. rewrite vc_profile. reflexivity. Qed.
Lemma set_registered_of s l : registered (fst (set_variables s l)) = registered s.
Proof. unfold set_variables. destruct (set_variables_loop (value s) l []) as [f r]. rewrite vc_registered. reflexivity. Qed.

(** The same for a whole request. *)
Lemma set_follows (P : station -> Prop) (v : var) :
  (forall t i, (i_actual i = true -> value t (i_var i) = i_value i) -> P t -> P (fst (handle_variable_changed t i))) ->
  (forall t i, i_actual i = true -> value t (i_var i) = i_value i -> i_var i = v -> P (fst (handle_variable_changed t i))) ->
  (forall t f, P t -> f v = value t v -> P (with_value t f)) ->
  forall l s, NoDup (map i_var l) -> (P s \/ exists i, In i l /\ takes i /\ i_var i = v) -> P (fst (set_variables s l)).
Proof.
  intros K E W l s ND H. rewrite set_variables_eq by exact ND. apply (vc_follows P v K E).
  - intros i I T. cbn. apply store_in; auto.
  - destruct H as [H|H]; [|right; exact H].
    destruct (existsb (fun i => i_ok i && i_actual i && same (i_var i) v) l) eqn:X.
    + right. apply existsb_exists in X. destruct X as (i & I & X). apply andb_true_iff in X. destruct X as [X1 X2].
      apply andb_true_iff in X1. apply same_spec in X2. exists i. split; [exact I|]. split; [exact X1|exact X2].
    + left. apply W; [exact H|]. apply store_notin. intros i I [T1 T2] Y.
      assert (Z' : existsb (fun i => i_ok i && i_actual i && same (i_var i) v) l = true).
      { apply existsb_exists. exists i. split; [exact I|]. rewrite T1, T2. cbn. apply same_spec. exact Y. }
      congruence.
Qed.

Ltac keep := intros t i V H; unfold handle_variable_changed; cases i; sock; auto;
  try (intros; repeat match goal with E : Some _ = Some _ |- _ => injection E as <- end; cbn; auto; congruence).
Ltac est := intros t i A V X; destruct i as [v a x ok]; cbn in A, X; subst; unfold handle_variable_changed; cbn; cbn in V; sock; auto;
  try (intros; repeat match goal with E : Some _ = Some _ |- _ => injection E as <- end; cbn; auto; congruence).

Lemma option_follows (get : options -> Z) (v : var) :
  (forall k o, get (Options k (o_range o) (o_repeat o) (o_wait o) (o_attempts o) (o_ping o)) = get o) ->
  (forall s, get (ws_options s) = value s v) -> requires_option_update v = true ->
  forall l s, NoDup (map i_var l) -> (forall o, socket s = Some o -> get o = value s v) ->
  forall o, socket (fst (set_variables s l)) = Some o -> get o = value (fst (set_variables s l)) v.
Proof.
  intros keeps_key reads is_option l s ND H. apply (set_follows (fun t => forall o, socket t = Some o -> get o = value t v) v).
  - intros t i _ Ht o. unfold handle_variable_changed. cases i; sock; intros E; try (injection E as <-); try congruence; auto;
      rewrite ?keeps_key, ?reads; auto.
  - intros t i A _ X o. destruct i as [w a x ok]. cbn in A, X. subst. destruct v; try discriminate is_option;
      unfold handle_variable_changed; cbn; sock; intros E; try congruence; injection E as <-; apply reads.
  - cbn. intros t f Ht E o So. rewrite E. apply Ht. exact So.
  - exact ND.
  - left. exact H.
Qed.

Lemma follows_set s l : NoDup (map i_var l) -> follows s -> follows (fst (set_variables s l)).
Proof.
  intros ND F. constructor.
  - apply (set_follows (fun t => q_attempts t = value t Attempts) Attempts); [keep|est| |exact ND|left; apply F].
    cbn. intros t f E X. congruence.
  - apply (set_follows (fun t => q_interval t = value t AttemptInterval) AttemptInterval); [keep|est| |exact ND|left; apply F].
    cbn. intros t f E X. congruence.
  - apply (set_follows (fun t => q_timeout t = value t Timeout) Timeout); [keep|est| |exact ND|left; apply F].
    cbn. intros t f E X. congruence.
  - apply (option_follows o_range RandomRange); auto. apply F.
  - apply (option_follows o_repeat RepeatTimes); auto. apply F.
  - apply (option_follows o_wait WaitMinimum); auto. apply F.
  - apply (option_follows o_attempts ProfileAttempts); auto. apply F.
  - apply (option_follows o_ping PingInterval); auto. apply F.
  - apply (set_follows (fun t => forall o, socket t = Some o -> profile t < 3 -> o_key o = value t Password) Password).
    + intros t i V H o. unfold handle_variable_changed. cases i; sock; intros E L; try (injection E as <-); try congruence; cbn; auto;
        try lia. symmetry. apply V. reflexivity.
    + intros t i A V X o. destruct i as [w a x ok]. cbn in A, X, V. subst. unfold handle_variable_changed. cbn. sock; intros E L;
        try congruence; try lia. injection E as <-. cbn. auto.
    + cbn. intros t f H E o So L. rewrite E. apply H; auto.
    + exact ND.
    + left. apply F.
Qed.

Lemma follows_start f p : follows (start f p).
Proof. constructor; cbn; auto; discriminate. Qed.

Lemma follows_step s e : once e -> follows s -> follows (fst (step s e)).
Proof.
  intros O F. destruct e as [l|p| |n|]; cbn [step].
  - apply follows_set; auto.
  - destruct F. constructor; cbn; auto; intros o E; injection E as <-; auto.
  - destruct F. constructor; cbn; auto; discriminate.
  - destruct F. destruct (0 <? n); constructor; cbn; unfold put, same; cbn; auto.
  - destruct F. constructor; cbn; auto.
Qed.

Lemma run_app : forall a b s, run s (a ++ b) = run (run s a) b.
Proof. induction a as [|e a IH]; intros b s; cbn; [reflexivity|apply IH]. Qed.

Lemma run_keeps (P : station -> Prop) (ok : event -> Prop) : (forall s e, ok e -> P s -> P (fst (step s e))) ->
  forall l s, Forall ok l -> P s -> P (run s l).
Proof.
  intros H l. induction l as [|e l IH]; intros s F Ps; [exact Ps|]. inversion F; subst. cbn. apply IH; auto.
Qed.

Definition aligned_ok (s : station) : Prop := timer_of (value s Aligned) (aligned s).
Lemma update_aligned_ok s : aligned_ok (update_aligned s).
Proof. unfold aligned_ok, timer_of. cbn. destruct (Z.leb_spec (value s Aligned) 0); split; intros; try lia; reflexivity. Qed.

Lemma aligned_set s l : NoDup (map i_var l) -> (aligned_ok s \/ exists i, In i l /\ takes i /\ i_var i = Aligned) -> aligned_ok (fst (set_variables s l)).
Proof.
  intros ND H. apply (set_follows aligned_ok Aligned); [| | |exact ND|exact H].
  - intros t i V A. unfold handle_variable_changed. cases i; sock; auto; try apply update_aligned_ok.
  - intros t i A V X. destruct i as [w a x ok]. cbn in A, X, V. subst. unfold handle_variable_changed. cbn. apply update_aligned_ok.
  - unfold aligned_ok. cbn. intros t f A E. rewrite E. exact A.
Qed.
Lemma aligned_step s e : once e -> aligned_ok s -> aligned_ok (fst (step s e)).
Proof.
  intros O A. destruct e as [l|p| |n|]; cbn [step]; auto.
  - apply aligned_set; auto.
  - apply update_aligned_ok.
Qed.

Definition heart_ok (s : station) : Prop := registered s = true /\ heartbeat s = value s Heartbeat.
Lemma heart_set s l : NoDup (map i_var l) -> registered s = true ->
  (heart_ok s \/ exists i, In i l /\ takes i /\ i_var i = Heartbeat) -> heart_ok (fst (set_variables s l)).
Proof.
  intros ND R H. split; [rewrite set_registered_of; exact R|].
  assert (G : registered (fst (set_variables s l)) = true -> heartbeat (fst (set_variables s l)) = value (fst (set_variables s l)) Heartbeat).
  { apply (set_follows (fun t => registered t = true -> heartbeat t = value t Heartbeat) Heartbeat).
    - intros t i V A. unfold handle_variable_changed. cases i; sock; intros; auto; try congruence. symmetry. apply V. reflexivity.
    - intros t i A V X. destruct i as [w a x ok]. cbn in A, X, V. subst. unfold handle_variable_changed. cbn. sock; intros; congruence.
    - cbn. intros t f A E. rewrite E. exact A.
    - exact ND.
    - destruct H as [H|H]; [left; intros; apply H|right; exact H]. }
  apply G. rewrite set_registered_of. exact R.
Qed.
Lemma heart_step s e : once e /\ e <> NotBooted -> heart_ok s -> heart_ok (fst (step s e)).
Proof.
  intros [O N] H. destruct e as [l|p| |n|]; cbn [step]; auto; [|
    |congruence].
  - apply heart_set; auto. apply H.
  - destruct H as [R E]. destruct (0 <? n); split; cbn; auto.
Qed.

(** The flag. *)
Lemma hvc_flag s i : snd (handle_variable_changed s i) = true <->
  i_actual i = true /\ i_var i = Password /\ profile s < 3 /\ socket s <> None.
Proof.
  unfold handle_variable_changed. destruct i as [v a x ok]; destruct a; cbn; [|split; [discriminate|intros (E & _); discriminate]].
  destruct v; cbn; try (split; [discriminate|intros (_ & E & _); discriminate]).
  sock; split; try discriminate; auto; try (intros (_ & _ & A & B); (congruence || lia)). intros _. repeat split; auto; congruence.
Qed.

Lemma vc_flag_spec : forall l s, snd (variables_changed s (res l)) = true <->
  (exists i, In i l /\ takes i /\ i_var i = Password) /\ profile s < 3 /\ socket s <> None.
Proof.
  induction l as [|i l IH]; intros s.
  - cbn. split; [discriminate|]. intros ((i & [] & _) & _).
  - cbn [res map]. rewrite vc_flag, orb_true_iff. fold (res l). rewrite IH.
    destruct (i_ok i) eqn:O.
    + rewrite hvc_flag, hvc_profile, hvc_socket. split.
      * intros [(A & V & L & N)|((j & J & T & V) & L & N)]; split; auto.
        -- exists i. split; [left; reflexivity|]. split; [split|]; auto.
        -- exists j. split; [right; exact J|auto].
      * intros ((j & [->|J] & T & V) & L & N).
        -- left. split; [apply T|auto].
        -- right. split; [exists j; auto|auto].
    + split.
      * intros [X|((j & J & T & V) & L & N)]; [discriminate|]. split; [exists j; split; [right; exact J|auto]|auto].
      * intros ((j & [->|J] & T & V) & L & N); [destruct T; congruence|]. right. split; [exists j; auto|auto].
Qed.

(** Entries for other variables. *)
Lemma hvc_other s i : (i_actual i = true -> exists n, i_var i = Other n) -> handle_variable_changed s i = (s, false).
Proof.
  intros H. unfold handle_variable_changed. destruct i as [v a x ok]; destruct a; [|reflexivity].
  destruct (H eq_refl) as [n E]. cbn in E. subst. reflexivity.
Qed.
Lemma vc_other : forall l s, (forall i, In i l -> takes i -> exists n, i_var i = Other n) -> variables_changed s (res l) = (s, false).
Proof.
  induction l as [|i l IH]; intros s H; [reflexivity|]. cbn [res map variables_changed]. fold (res l).
  destruct (i_ok i) eqn:O.
  - rewrite hvc_other by (intros A; apply H; [left; reflexivity|split; auto]).
    rewrite IH by (intros j J; apply H; right; exact J). reflexivity.
  - rewrite IH by (intros j J; apply H; right; exact J). reflexivity.
Qed.
