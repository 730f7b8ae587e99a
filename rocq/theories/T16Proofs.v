From Coq Require Import ZArith NArith List Bool Lia Sorting.Sorted.
From Verif Require Import T16Model T16Spec.
Import ListNotations.
Local Open Scope Z_scope.

Definition is_start (p : pend) : Prop := match p_body p with BStart _ _ _ _ _ => True | _ => False end.
Definition is_stop (p : pend) : Prop := match p_body p with BStop _ _ _ _ _ => True | _ => False end.
Definition is_meter (p : pend) : Prop := match p_body p with BMeter _ _ _ => True | _ => False end.
Definition stop_id (p : pend) : option Z := match p_body p with BStop i _ _ _ _ => Some i | _ => None end.
Definition look (m : list (N * Z)) (k : N) : option Z := option_map snd (find (fun e => N.eqb (fst e) k) m).

(** The transaction [t] is the one of the StartTransaction [m]. *)
Definition linked (q : list pend) (t : tx) (m : N) : Prop :=
  forall p, In p q -> is_start p -> (p_init p = m <-> p_mid p = t_smid t).
Definition waits (q : list pend) (m : N) : Prop := exists p, In p q /\ is_start p /\ p_init p = m.

Record Inv (n : Z) (act : Z -> option tx) (stp : list tx) (q : list pend) (tm : list (N * Z)) (mv : list (N * list N)) (nid : N) (b : obs) : Prop := {
  i_sorted : StronglySorted N.lt (map p_init q);
  i_nodup : NoDup (map p_mid q);
  i_tail : forall p, In p (tl q) -> p_mid p = p_init p;
  i_small : forall p, In p q -> (p_init p < nid)%N /\ (p_mid p < nid)%N;
  i_tm_small : forall k i, In (k, i) tm -> (k < nid)%N;
  i_mv : forall k l x, In (k, l) mv -> In x l -> (x < nid)%N /\ forall p, In p q -> p_mid p = x -> is_meter p;
  i_cur_small : forall c m, cur b c = Some m -> (m < nid)%N;
  i_cur_inj : forall c d m, cur b c = Some m -> cur b d = Some m -> c = d;
  i_cur : forall c m, cur b c = Some m -> act c <> None;
  i_act : forall c t, act c = Some t -> exists m, cur b c = Some m /\ 0 < c <= n /\ t_fin t = false /\ t_emid t = None /\ (t_smid t < nid)%N
            /\ linked q t m /\ (forall i, In (m, i) (ans b) <-> t_id t = Some i);
  i_stp : forall t, In t stp -> exists m e, t_emid t = Some e /\ t_fin t = true /\ (e < nid)%N /\ (t_smid t < nid)%N /\ (m < nid)%N
            /\ linked q t m /\ (forall p, In p q -> is_start p -> p_mid p <> e) /\ (forall c, cur b c <> Some m)
            /\ (waits q m -> exists p, In p q /\ is_stop p /\ p_mid p = e /\ In (p_init p, m) (ostop b));
  i_stop : forall p, In p q -> is_stop p -> exists m, In (p_init p, m) (ostop b)
            /\ (waits q m -> exists t, In t stp /\ linked q t m /\ t_emid t = Some (p_mid p))
            /\ (forall i, In (m, i) (ans b) -> look tm (p_mid p) = Some i \/ look tm (p_mid p) = None /\ stop_id p = Some i);
  i_tm : forall p i, In p q -> look tm (p_mid p) = Some i -> is_stop p /\ exists m, In (p_init p, m) (ostop b) /\ In (m, i) (ans b);
  i_ostop : forall k m, In (k, m) (ostop b) -> (k < nid)%N /\ (m < k)%N /\ forall c, cur b c <> Some m;
  i_ostop_fun : forall k m m', In (k, m) (ostop b) -> In (k, m') (ostop b) -> m = m';
  i_ostop_inj : forall k k' m, In (k, m) (ostop b) -> In (k', m) (ostop b) -> k = k';
  i_ans : forall m i, In (m, i) (ans b) -> (m < nid)%N /\ ~ waits q m;
  i_ans_fun : forall m i i', In (m, i) (ans b) -> In (m, i') (ans b) -> i = i';
  i_emid : NoDup (map t_emid stp)
}.
Definition inv (s : st) (b : obs) : Prop := Inv (n s) (act s) (stopped s) (q s) (txmap s) (mvmap s) (nid s) b.

Lemma inv_initial : forall n, inv (initial n) nothing.
Proof.
  intros n. constructor; cbn; try contradiction; try discriminate; try (intros; contradiction || discriminate).
  constructor. constructor. constructor.
Qed.

(** ** Lists *)
Lemma sorted_app : forall l x, StronglySorted N.lt l -> (forall y, In y l -> (y < x)%N) -> StronglySorted N.lt (l ++ [x]).
Proof.
  induction l as [ | a l IH ]; intros x S H; cbn.
  - repeat constructor.
  - inversion S; subst. constructor. apply IH; auto with datatypes.
    apply Forall_app. split; auto. constructor; auto. apply H. now left.
Qed.
Lemma sorted_filter : forall (f : pend -> bool) l, StronglySorted N.lt (map p_init l) -> StronglySorted N.lt (map p_init (filter f l)).
Proof.
  induction l as [ | a l IH ]; cbn; intros S; auto. inversion S; subst. destruct (f a); cbn; auto.
  constructor; auto. rewrite Forall_forall in *. intros x X. apply H2. apply in_map_iff in X as [y [E Y]].
  apply filter_In in Y as [Y _]. apply in_map_iff. eauto.
Qed.
Lemma nodup_filter : forall (f : pend -> bool) l, NoDup (map p_mid l) -> NoDup (map p_mid (filter f l)).
Proof.
  induction l as [ | a l IH ]; cbn; intros S; auto. inversion S; subst. destruct (f a); cbn; auto.
  constructor; auto. intros X. apply H1. apply in_map_iff in X as [y [E Y]].
  apply filter_In in Y as [Y _]. apply in_map_iff. eauto.
Qed.
Lemma nodup_app_one : forall l (x : N), NoDup l -> ~ In x l -> NoDup (l ++ [x]).
Proof.
  induction l as [ | a l IH ]; cbn; intros x N H. repeat constructor; auto.
  inversion N; subst. constructor. rewrite in_app_iff; cbn. intuition. apply IH; auto.
Qed.
Lemma NoDup_app_one_any : forall A l (x : A), NoDup l -> ~ In x l -> NoDup (l ++ [x]).
Proof.
  induction l as [ | a l IH ]; cbn; intros x N H. repeat constructor; auto.
  inversion N; subst. constructor. rewrite in_app_iff; cbn. intuition. apply IH; auto.
Qed.
Lemma mid_inj : forall q p p', NoDup (map p_mid q) -> In p q -> In p' q -> p_mid p = p_mid p' -> p = p'.
Proof.
  induction q as [ | a q IH ]; cbn; intros p p' N I I' E. contradiction.
  inversion N; subst.
  destruct I as [-> | I], I' as [-> | I']; auto.
  - exfalso. apply H1. rewrite E. now apply in_map.
  - exfalso. apply H1. rewrite <- E. now apply in_map.
Qed.
Lemma init_inj : forall q p p', StronglySorted N.lt (map p_init q) -> In p q -> In p' q -> p_init p = p_init p' -> p = p'.
Proof.
  induction q as [ | a q IH ]; cbn; intros p p' S I I' E. contradiction.
  inversion S; subst. rewrite Forall_forall in H2.
  destruct I as [-> | I], I' as [-> | I']; auto.
  - specialize (H2 (p_init p') (in_map _ _ _ I')). lia.
  - specialize (H2 (p_init p) (in_map _ _ _ I)). lia.
Qed.
Lemma head_first : forall p q x, StronglySorted N.lt (map p_init (p :: q)) -> In x q -> (p_init p < p_init x)%N.
Proof. cbn. intros p q x S I. inversion S; subst. rewrite Forall_forall in H2. apply H2. now apply in_map. Qed.
Lemma look_none : forall m k, (forall i, ~ In (k, i) m) -> look m k = None.
Proof.
  intros m k H. unfold look. destruct (find _ m) as [ [a i] | ] eqn:E; auto. apply find_some in E as [I E]. cbn in E.
  apply N.eqb_eq in E. subst. now apply H in I.
Qed.
Lemma look_in : forall m k i, look m k = Some i -> In (k, i) m.
Proof.
  intros m k i. unfold look. destruct (find _ m) as [ [a j] | ] eqn:E; cbn; intros X; inversion X; subst.
  apply find_some in E as [I E]. cbn in E. apply N.eqb_eq in E. now subst.
Qed.
Lemma look_filter : forall m k k', look (filter (fun e => negb (N.eqb (fst e) k)) m) k' = if N.eqb k' k then None else look m k'.
Proof.
  intros m k k'. unfold look. induction m as [ | [a i] m IH ]; cbn.
  - now destruct (N.eqb k' k).
  - destruct (N.eqb_spec a k) as [-> | A]; cbn.
    + rewrite IH. destruct (N.eqb_spec k' k); subst; auto. destruct (N.eqb_spec k k'); subst; auto. congruence.
    + destruct (N.eqb_spec a k'); subst; cbn.
      * destruct (N.eqb_spec k' k); subst; congruence.
      * apply IH.
Qed.
Lemma look_cons : forall m k i k', look ((k, i) :: m) k' = if N.eqb k k' then Some i else look m k'.
Proof. intros. unfold look. cbn. now destruct (N.eqb k k'). Qed.
Lemma in_q_app : forall (p : pend) q x, In p (q ++ [x]) <-> In p q \/ p = x.
Proof. intros. rewrite in_app_iff. cbn. intuition. Qed.
Lemma tl_app : forall (p : pend) q x, In p (tl (q ++ [x])) -> In p (tl q) \/ p = x.
Proof. intros p [ | a q ] x; cbn; auto; rewrite ?in_app_iff; cbn; intuition. Qed.

Lemma waits_app : forall q x m, waits (q ++ [x]) m <-> waits q m \/ (is_start x /\ p_init x = m).
Proof.
  intros q x m. unfold waits. split.
  - intros [p [I [S E]]]. apply in_q_app in I as [I | ->]; eauto.
  - intros [[p [I [S E]]] | [S E]]; [ exists p | exists x ]; rewrite in_q_app; auto.
Qed.
Lemma linked_app : forall q x t m, linked q t m -> (is_start x -> p_init x <> m /\ p_mid x <> t_smid t) -> linked (q ++ [x]) t m.
Proof.
  intros q x t m L H p I S. apply in_q_app in I as [I | ->]. now apply L. destruct (H S). split; intros; contradiction.
Qed.

(** ** The transitions *)
Lemma push_start_inv : forall n act stp q tm mv nid b c t sb,
  Inv n act stp q tm mv nid b -> cur b c = None -> 0 < c <= n ->
  t_smid t = nid -> t_fin t = false -> t_emid t = None -> t_id t = None ->
  (match sb with BStart _ _ _ _ _ => True | _ => False end) ->
  Inv n (upd act c (Some t)) stp (q ++ [P nid sb nid sb]) tm mv (N.succ nid)
      (Obs (fun d => if d =? c then Some nid else cur b d) (ostop b) (ometer b) (ans b)).
Proof.
  intros n act stp q tm mv nid b c t sb I C R T1 T2 T3 T4 SB.
  assert (NS : ~ is_stop (P nid sb nid sb)) by (unfold is_stop; destruct sb; cbn in *; tauto).
  assert (W : forall m, (m < nid)%N -> (waits (q ++ [P nid sb nid sb]) m <-> waits q m)).
  { intros m M. rewrite waits_app. split; auto. intros [W | [_ E]]; auto. cbn in E. lia. }
  destruct I. constructor; cbn [cur ostop ometer ans].
  - rewrite map_app. apply sorted_app; auto. intros y Y. apply in_map_iff in Y as [p [<- Y]]. now apply i_small0.
  - rewrite map_app. cbn. apply nodup_app_one; auto. intros Y. apply in_map_iff in Y as [p [E Y]]. apply i_small0 in Y. lia.
  - intros p Y. apply tl_app in Y as [Y | ->]; auto.
  - intros p Y. apply in_q_app in Y as [Y | ->]. apply i_small0 in Y. lia. cbn. lia.
  - intros k i Y. apply i_tm_small0 in Y. lia.
  - intros k l x Y X. destruct (i_mv0 k l x Y X) as [A B]. split. lia. intros p PI E. apply in_q_app in PI as [PI | ->]; auto. cbn in E. lia.
  - intros d m. destruct (Z.eqb_spec d c); intros E. inversion E; lia. apply i_cur_small0 in E. lia.
  - intros d e m. destruct (Z.eqb_spec d c), (Z.eqb_spec e c); intros D E; subst; auto.
    + inversion D; subst. apply i_cur_small0 in E. lia.
    + inversion E; subst. apply i_cur_small0 in D. lia.
    + eauto.
  - intros d m. unfold upd. destruct (Z.eqb_spec d c); intros E; [ discriminate | eauto ].
  - intros d t'. unfold upd. destruct (Z.eqb_spec d c); intros E.
    + inversion E; subst. exists (t_smid t'). repeat split; auto; try lia.
      * intros IM. apply in_q_app in H as [H | ->]; auto. apply i_small0 in H. lia.
      * intros IM. apply in_q_app in H as [H | ->]; auto. apply i_small0 in H. lia.
      * intros A. apply i_ans0 in A. lia.
      * intros A. congruence.
    + destruct (i_act0 d t' E) as [m (A1 & A2 & A3 & A4 & A5 & A6 & A7)]. exists m. repeat split; auto; try lia; try apply A7.
      all: apply linked_app with (x := P nid sb nid sb) in A6; [ now apply A6 | ].
      all: intros _; cbn; split; intros X; subst; apply i_cur_small0 in A1; lia.
  - intros t' Y. destruct (i_stp0 t' Y) as [m [e (A1 & A2 & A3 & A4 & A5 & A6 & A7 & A8 & A9)]]. exists m, e. repeat split; auto; try lia.
    + apply linked_app with (x := P nid sb nid sb) in A6; [ now apply A6 | ]. intros _; cbn; split; lia.
    + apply linked_app with (x := P nid sb nid sb) in A6; [ now apply A6 | ]. intros _; cbn; split; lia.
    + intros p PI S. apply in_q_app in PI as [PI | ->]; auto. cbn. lia.
    + intros d. destruct (Z.eqb_spec d c); auto. intros X. inversion X. lia.
    + intros X. apply W in X; auto. destruct (A9 X) as [p (B1 & B2 & B3 & B4)]. exists p. rewrite in_q_app. auto.
  - intros p PI S. apply in_q_app in PI as [PI | ->]; [ | contradiction ].
    destruct (i_stop0 p PI S) as [m (A1 & A2 & A3)]. exists m. repeat split; auto.
    intros X. apply i_ostop0 in A1. assert (m < nid)%N by lia. apply W in X; auto. destruct (A2 X) as [t' (B1 & B2 & B3)]. exists t'. repeat split; auto.
    all: destruct (i_stp0 t' B1) as [m' [e (C1 & C2 & C3 & C4 & _)]].
    all: apply linked_app with (x := P nid sb nid sb) in B2; [ now apply B2 | ]. all: intros _; cbn; split; lia.
  - intros p i PI L. apply in_q_app in PI as [PI | ->]; [ eauto | ]. cbn in L. apply look_in in L. apply i_tm_small0 in L. lia.
  - intros k m X. destruct (i_ostop0 k m X) as (A & B & D). repeat split; auto; try lia. intros d. destruct (Z.eqb_spec d c); auto.
    intros Y. inversion Y. lia.
  - eauto.
  - eauto.
  - intros m i X. destruct (i_ans0 m i X) as [A B]. split. lia. rewrite W; auto.
  - eauto.
  - auto.
Qed.
Lemma push_stop_inv : forall n act stp q tm mv nid b c t t' m sb,
  Inv n act stp q tm mv nid b -> act c = Some t -> cur b c = Some m ->
  t_smid t' = t_smid t -> t_emid t' = Some nid -> t_fin t' = true ->
  (exists i w x r g, sb = BStop i w x r g /\ forall j, t_id t = Some j -> i = j) ->
  Inv n (upd act c None) (stp ++ [t']) (q ++ [P nid sb nid sb]) tm mv (N.succ nid)
      (Obs (fun d => if d =? c then None else cur b d) ((nid, m) :: ostop b) (ometer b) (ans b)).
Proof.
  intros n act stp q tm mv nid b c t t' m sb I A C T1 T2 T3 SB.
  assert (NS : ~ is_start (P nid sb nid sb)) by (destruct SB as (i & w & x & r & g & -> & _); unfold is_start; cbn; tauto).
  assert (W : forall m, (waits (q ++ [P nid sb nid sb]) m <-> waits q m)).
  { intros k. rewrite waits_app. split; auto. intros [W | [E _]]; auto. contradiction. }
  assert (LA : forall t k, linked (q ++ [P nid sb nid sb]) t k <-> linked q t k).
  { intros u k. split; intros L. intros p PI S. apply L; auto. rewrite in_q_app. auto. apply linked_app; auto. }
  destruct I. destruct (i_act0 c t A) as [m' (A1 & A2 & A3 & A4 & A5 & A6 & A7)]. assert (m' = m) by congruence. subst m'.
  constructor; cbn [cur ostop ometer ans].
  - rewrite map_app. apply sorted_app; auto. intros y Y. apply in_map_iff in Y as [p [<- Y]]. now apply i_small0.
  - rewrite map_app. cbn. apply nodup_app_one; auto. intros Y. apply in_map_iff in Y as [p [E Y]]. apply i_small0 in Y. lia.
  - intros p Y. apply tl_app in Y as [Y | ->]; auto.
  - intros p Y. apply in_q_app in Y as [Y | ->]. apply i_small0 in Y. lia. cbn. lia.
  - intros k i Y. apply i_tm_small0 in Y. lia.
  - intros k l x Y X. destruct (i_mv0 k l x Y X) as [B D]. split. lia. intros p PI E. apply in_q_app in PI as [PI | ->]; auto. cbn in E. lia.
  - intros d k. destruct (Z.eqb_spec d c); intros E. discriminate. apply i_cur_small0 in E. lia.
  - intros d e k. destruct (Z.eqb_spec d c), (Z.eqb_spec e c); intros D E; try discriminate. eauto.
  - intros d k. unfold upd. destruct (Z.eqb_spec d c); intros E; [ discriminate | eauto ].
  - intros d u. unfold upd. destruct (Z.eqb_spec d c); intros E; [ discriminate | ].
    destruct (i_act0 d u E) as [k (B1 & B2 & B3 & B4 & B5 & B6 & B7)]. exists k. rewrite LA. repeat split; auto; try lia; try apply B7; apply B6; auto.
  - intros u Y. rewrite in_app_iff in Y. destruct Y as [Y | [<- | []]].
    + destruct (i_stp0 u Y) as [k [e (B1 & B2 & B3 & B4 & B5 & B6 & B7 & B8 & B9)]]. exists k, e. rewrite LA, W.
      split; [ auto | ]. split; [ auto | ]. split; [ lia | ]. split; [ lia | ]. split; [ lia | ]. split; [ auto | ]. split; [ | split ].
      * intros p PI S. apply in_q_app in PI as [PI | ->]; auto.
      * intros d. destruct (Z.eqb_spec d c); auto. discriminate.
      * intros X. destruct (B9 X) as [p (D1 & D2 & D3 & D4)]. exists p. rewrite in_q_app. cbn [In]. auto.
    + exists m, nid. rewrite LA, W. pose proof (i_cur_small0 c m C).
      split; [ auto | ]. split; [ auto | ]. split; [ lia | ]. split; [ lia | ]. split; [ lia | ]. split; [ | split; [ | split ] ].
      * intros p PI S. rewrite T1. now apply A6.
      * intros p PI S. apply in_q_app in PI as [PI | ->]; [ | contradiction ]. apply i_small0 in PI. lia.
      * intros d. destruct (Z.eqb_spec d c); try discriminate. intros X. apply n0. eauto.
      * intros _. exists (P nid sb nid sb). rewrite in_q_app. repeat split; cbn; auto. destruct SB as (i & w & x & r & g & -> & _). exact Logic.I.
  - intros p PI S. apply in_q_app in PI as [PI | ->].
    + destruct (i_stop0 p PI S) as [k (B1 & B2 & B3)]. exists k. rewrite W. cbn [In]. split; [ auto | ]. split; [ | auto ].
      intros X. destruct (B2 X) as [u (D1 & D2 & D3)]. exists u. rewrite LA, in_app_iff. auto.
    + exists m. cbn [p_init p_mid In]. rewrite W. split; [ auto | ]. split.
      * intros X. exists t'. rewrite LA, in_app_iff. cbn [In]. repeat split; auto; intros; rewrite ?T1 in *; apply A6; auto; congruence.
      * intros i Y. right. split. apply look_none. intros j Z. apply i_tm_small0 in Z. lia.
        apply A7 in Y. destruct SB as (i' & w & x & r & g & -> & SB). cbn. f_equal. auto.
  - intros p i PI L. apply in_q_app in PI as [PI | ->].
    + destruct (i_tm0 p i PI L) as [B1 [k [B2 B3]]]. split; auto. exists k. cbn [In]. auto.
    + cbn in L. apply look_in in L. apply i_tm_small0 in L. lia.
  - cbn [In]. intros k u [X | X].
    + inversion X; subst. split. lia. split. eauto. intros d. destruct (Z.eqb_spec d c); try discriminate. intros Y. apply n0. eauto.
    + destruct (i_ostop0 k u X) as (B & D & E). repeat split; auto; try lia. intros d. destruct (Z.eqb_spec d c); auto. discriminate.
  - cbn [In]. intros k u v [X | X] [Y | Y]; try (inversion X; subst); try (inversion Y; subst); auto; eauto.
    + apply i_ostop0 in Y. lia.
    + apply i_ostop0 in X. lia.
  - cbn [In]. intros k u v [X | X] [Y | Y]; try (inversion X; subst); try (inversion Y; subst); auto; eauto.
    + apply i_ostop0 in Y. destruct Y as (_ & _ & Y). now apply Y in C.
    + apply i_ostop0 in X. destruct X as (_ & _ & X). now apply X in C.
  - intros k i X. destruct (i_ans0 k i X) as [B D]. split. lia. rewrite W; auto.
  - eauto.
  - rewrite map_app. cbn [map]. rewrite T2. apply NoDup_app_one_any; auto. intros X. apply in_map_iff in X as [u [E X]].
    destruct (i_stp0 u X) as [k [e (B1 & _ & B3 & _)]]. rewrite B1 in E. inversion E; subst. lia.
Qed.
Lemma push_meter_inv : forall n act stp q tm mv mv' nid b sb om,
  Inv n act stp q tm mv nid b ->
  (match sb with BMeter _ _ _ => True | _ => False end) ->
  (forall k l x, In (k, l) mv' -> In x l -> x = nid \/ exists k' l', In (k', l') mv /\ In x l') ->
  Inv n act stp (q ++ [P nid sb nid sb]) tm mv' (N.succ nid) (Obs (cur b) (ostop b) om (ans b)).
Proof.
  intros n act stp q tm mv mv' nid b sb om I SB MV.
  assert (NS : ~ is_start (P nid sb nid sb)) by (unfold is_start; cbn; destruct sb; tauto).
  assert (NT : ~ is_stop (P nid sb nid sb)) by (unfold is_stop; cbn; destruct sb; tauto).
  assert (W : forall m, (waits (q ++ [P nid sb nid sb]) m <-> waits q m)).
  { intros k. rewrite waits_app. split; auto. intros [W | [E _]]; auto. contradiction. }
  assert (LA : forall t k, linked (q ++ [P nid sb nid sb]) t k <-> linked q t k).
  { intros u k. split; intros L. intros p PI S. apply L; auto. rewrite in_q_app. auto. apply linked_app; auto. }
  destruct I. constructor; cbn [cur ostop ometer ans].
  - rewrite map_app. apply sorted_app; auto. intros y Y. apply in_map_iff in Y as [p [<- Y]]. now apply i_small0.
  - rewrite map_app. cbn. apply nodup_app_one; auto. intros Y. apply in_map_iff in Y as [p [E Y]]. apply i_small0 in Y. lia.
  - intros p Y. apply tl_app in Y as [Y | ->]; auto.
  - intros p Y. apply in_q_app in Y as [Y | ->]. apply i_small0 in Y. lia. cbn. lia.
  - intros k i Y. apply i_tm_small0 in Y. lia.
  - intros k l x Y X. destruct (MV k l x Y X) as [-> | [k' [l' [Y' X']]]].
    + split. lia. intros p PI E. apply in_q_app in PI as [PI | ->]. apply i_small0 in PI. lia. exact SB.
    + destruct (i_mv0 k' l' x Y' X') as [B D]. split. lia. intros p PI E. apply in_q_app in PI as [PI | ->]; auto.
  - intros d k E. apply i_cur_small0 in E. lia.
  - eauto.
  - eauto.
  - intros d u E. destruct (i_act0 d u E) as [k (B1 & B2 & B3 & B4 & B5 & B6 & B7)]. exists k. rewrite LA. repeat split; auto; try lia; try apply B7; apply B6; auto.
  - intros u Y. destruct (i_stp0 u Y) as [k [e (B1 & B2 & B3 & B4 & B5 & B6 & B7 & B8 & B9)]]. exists k, e. rewrite LA, W.
    split; [ auto | ]. split; [ auto | ]. split; [ lia | ]. split; [ lia | ]. split; [ lia | ]. split; [ auto | ]. split; [ | split ]; auto.
    + intros p PI S. apply in_q_app in PI as [PI | ->]; auto.
    + intros X. destruct (B9 X) as [p (D1 & D2 & D3 & D4)]. exists p. rewrite in_q_app. auto.
  - intros p PI S. apply in_q_app in PI as [PI | ->]; [ | contradiction ].
    destruct (i_stop0 p PI S) as [k (B1 & B2 & B3)]. exists k. rewrite W. split; [ auto | ]. split; [ | auto ].
    intros X. destruct (B2 X) as [u (D1 & D2 & D3)]. exists u. rewrite LA. auto.
  - intros p i PI L. apply in_q_app in PI as [PI | ->]. eauto. cbn in L. apply look_in in L. apply i_tm_small0 in L. lia.
  - intros k u X. destruct (i_ostop0 k u X) as (B & D & E). repeat split; auto; try lia.
  - eauto.
  - eauto.
  - intros k i X. destruct (i_ans0 k i X) as [B D]. split. lia. rewrite W; auto.
  - eauto.
  - auto.
Qed.
(** A change of the payloads of MeterValues only. *)
Lemma map_inv : forall n act stp q tm mv mv' nid b (f : pend -> pend),
  Inv n act stp q tm mv nid b ->
  (forall p, In p q -> p_mid (f p) = p_mid p /\ p_init (f p) = p_init p /\ (f p = p \/ is_meter p /\ is_meter (f p))) ->
  (forall k l, In (k, l) mv' -> In (k, l) mv) ->
  Inv n act stp (map f q) tm mv' nid b.
Proof.
  intros n act stp q tm mv mv' nid b f I F MV.
  assert (FI : map p_init (map f q) = map p_init q) by (rewrite map_map; apply map_ext_in; intros; now apply F).
  assert (FM : map p_mid (map f q) = map p_mid q) by (rewrite map_map; apply map_ext_in; intros; now apply F).
  assert (ST : forall p, In p (map f q) -> is_start p -> In p q).
  { intros p X S. apply in_map_iff in X as [y [<- Y]]. destruct (F y Y) as (_ & _ & [-> | [_ M]]); auto. unfold is_start, is_meter in *. destruct (p_body (f y)); contradiction. }
  assert (SP : forall p, In p (map f q) -> is_stop p -> In p q).
  { intros p X S. apply in_map_iff in X as [y [<- Y]]. destruct (F y Y) as (_ & _ & [-> | [_ M]]); auto. unfold is_stop, is_meter in *. destruct (p_body (f y)); contradiction. }
  assert (ST' : forall p, In p q -> ~ is_meter p -> In p (map f q)).
  { intros p X S. destruct (F p X) as (_ & _ & [E | [M _]]); [ | contradiction ]. rewrite <- E. now apply in_map. }
  assert (NM : forall p, is_start p -> ~ is_meter p) by (unfold is_start, is_meter; intros p; destruct (p_body p); tauto).
  assert (NM' : forall p, is_stop p -> ~ is_meter p) by (unfold is_stop, is_meter; intros p; destruct (p_body p); tauto).
  assert (W : forall m, waits (map f q) m <-> waits q m) by (intros m; unfold waits; split; intros [p (A & B & C)]; exists p; eauto).
  assert (LA : forall t k, linked (map f q) t k <-> linked q t k) by (intros t k; unfold linked; split; intros L p A B; apply L; eauto).
  destruct I. constructor; try rewrite FI; try rewrite FM; auto.
  - intros p X. assert (E : tl (map f q) = map f (tl q)) by (destruct q; auto). rewrite E in X. apply in_map_iff in X as [y [<- Y]].
    assert (In y q) by (destruct q; cbn in *; auto). destruct (F y H) as (-> & -> & _). auto.
  - intros p X. apply in_map_iff in X as [y [<- Y]]. destruct (F y Y) as (-> & -> & _). auto.
  - intros k l x X Y. destruct (i_mv0 k l x (MV _ _ X) Y) as [A B]. split; auto. intros p PI E.
    apply in_map_iff in PI as [y [<- PI]]. destruct (F y PI) as (E1 & _ & [E2 | [_ M]]); auto. rewrite E2 in *. auto.
  - intros d u E. destruct (i_act0 d u E) as [k B]. exists k. rewrite LA. auto.
  - intros u Y. destruct (i_stp0 u Y) as [k [e (B1 & B2 & B3 & B4 & B5 & B6 & B7 & B8 & B9)]]. exists k, e. rewrite LA, W.
    repeat (split; [ now auto | ]). intros X. destruct (B9 X) as [p (D1 & D2 & D3 & D4)]. exists p. auto.
  - intros p PI S. destruct (i_stop0 p (SP p PI S) S) as [k (B1 & B2 & B3)]. exists k. rewrite W. split; [ auto | ]. split; [ | auto ].
    intros X. destruct (B2 X) as [u (D1 & D2 & D3)]. exists u. rewrite LA. auto.
  - intros p i PI L. apply in_map_iff in PI as [y [<- PI]]. destruct (F y PI) as (E1 & E2 & [E3 | [M _]]).
    + rewrite E3 in *. eauto.
    + rewrite E1 in L. apply i_tm0 in L as [L _]; auto. now apply NM' in L.
  - intros m i X. rewrite W. eauto.
Qed.
(** Removal of messages. *)
Lemma remove_inv : forall n act stp q q' tm mv nid b,
  Inv n act stp q tm mv nid b ->
  StronglySorted N.lt (map p_init q') -> NoDup (map p_mid q') -> (forall p, In p (tl q') -> p_mid p = p_init p) ->
  incl q' q ->
  (forall p m, In p q -> is_stop p -> In (p_init p, m) (ostop b) -> waits q' m -> In p q') ->
  Inv n act stp q' tm mv nid b.
Proof.
  intros n act stp q q' tm mv nid b I S1 S2 S3 S4 S5.
  assert (W : forall m, waits q' m -> waits q m) by (intros m [p (A & B & C)]; exists p; auto).
  assert (LA : forall t k, linked q t k -> linked q' t k) by (intros t k L p A B; apply L; auto).
  destruct I. constructor; auto.
  - intros k l x X Y. destruct (i_mv0 k l x X Y). auto.
  - intros d u E. destruct (i_act0 d u E) as [k (A1 & A2 & A3 & A4 & A5 & A6 & A7)]. exists k. repeat (split; [ now auto | ]). auto.
  - intros u Y. destruct (i_stp0 u Y) as [k [e (B1 & B2 & B3 & B4 & B5 & B6 & B7 & B8 & B9)]]. exists k, e.
    repeat (split; [ now auto | ]). intros X. destruct (B9 (W _ X)) as [p (D1 & D2 & D3 & D4)]. exists p. eauto.
  - intros p PI S. destruct (i_stop0 p (S4 p PI) S) as [k (B1 & B2 & B3)]. exists k. split; [ auto | ]. split; [ | auto ].
    intros X. destruct (B2 (W _ X)) as [u (D1 & D2 & D3)]. exists u. auto.
  - intros m i X. destruct (i_ans0 m i X). split; auto.
Qed.
Lemma tail_sorted : forall p r, StronglySorted N.lt (map p_init (p :: r)) -> StronglySorted N.lt (map p_init r).
Proof. cbn. intros p r S. now inversion S. Qed.
Lemma drop_head_inv : forall n act stp p r tm mv nid b, Inv n act stp (p :: r) tm mv nid b -> Inv n act stp r tm mv nid b.
Proof.
  intros n act stp p r tm mv nid b I. apply remove_inv with (q := p :: r); auto.
  - eapply tail_sorted, i_sorted, I.
  - apply i_nodup in I. cbn in I. now inversion I.
  - intros x X. apply (i_tail _ _ _ _ _ _ _ _ I). cbn. destruct r; cbn in *; auto.
  - intros x; cbn; auto.
  - intros x m [-> | X] S O [y (A & B & C)]; auto. exfalso.
    apply (i_ostop _ _ _ _ _ _ _ _ I) in O. assert (p_init x < p_init y)%N by (eapply head_first; eauto; apply I). lia.
Qed.
Lemma stp_filter_inv : forall n act stp q tm mv nid b f,
  Inv n act stp q tm mv nid b -> (forall t p, In t stp -> In p q -> t_emid t = Some (p_mid p) -> f t = true) ->
  Inv n act (filter f stp) q tm mv nid b.
Proof.
  intros n act stp q tm mv nid b f I F. destruct I. constructor; auto.
  - intros t T. apply filter_In in T as [T _]. auto.
  - intros p PI S. destruct (i_stop0 p PI S) as [m (A & B & C)]. exists m. repeat split; auto. intros W. destruct (B W) as [t (T1 & T2 & T3)].
    exists t. rewrite filter_In. repeat split; eauto; now apply T2.
  - clear - i_emid0. induction stp as [ | a l IH ]; cbn in *; auto. inversion i_emid0; subst. destruct (f a); cbn; auto.
    constructor; auto. intros X. apply H1. apply in_map_iff in X as [y [E Y]]. apply filter_In in Y as [Y _]. apply in_map_iff. eauto.
Qed.
(** The first message is sent. *)
Lemma send_inv : forall n act stp p r tm mv nid b,
  Inv n act stp (p :: r) tm mv nid b ->
  forall p' tm', (look tm (p_mid p) = None /\ p' = p /\ tm' = tm
                  \/ exists i, look tm (p_mid p) = Some i /\ p' = P (p_mid p) (set_id i (p_body p)) (p_init p) (p_orig p)
                               /\ tm' = filter (fun e => negb (N.eqb (fst e) (p_mid p))) tm) ->
  Inv n act stp (p' :: r) tm' mv nid b /\ look tm' (p_mid p') = None /\ p_mid p' = p_mid p /\ p_init p' = p_init p /\ (is_start p <-> is_start p').
Proof.
  intros n act stp p r tm mv nid b I p' tm' [(L & -> & ->) | (i & L & EP & ->)]. split; [ auto | intuition ].
  assert (SP := proj1 (i_tm _ _ _ _ _ _ _ _ I p i (or_introl eq_refl) L)).
  assert (SP' : is_stop p') by (subst p'; unfold is_stop in *; cbn; destruct (p_body p); auto).
  assert (M : p_mid p' = p_mid p) by now subst. assert (IN : p_init p' = p_init p) by now subst.
  assert (NS : ~ is_start p) by (unfold is_stop, is_start in *; destruct (p_body p); tauto).
  assert (NS' : ~ is_start p') by (unfold is_stop, is_start in *; destruct (p_body p'); tauto).
  split; [ | split; [ | repeat split; auto; tauto ] ].
  2: { rewrite look_filter, M, N.eqb_refl. auto. }
  assert (ST : forall x, is_start x -> (In x (p' :: r) <-> In x (p :: r))).
  { intros x X. cbn. split; intros [<- | Y]; auto; contradiction. }
  assert (W : forall m, waits (p' :: r) m <-> waits (p :: r) m).
  { intros m. split; intros [x (A & B & C)]; exists x; split; auto; apply ST; auto. }
  assert (LA : forall t k, linked (p' :: r) t k <-> linked (p :: r) t k).
  { intros t k. split; intros A x X S; apply A; auto; apply ST; auto. }
  assert (IP : stop_id p' = Some i) by (subst p'; unfold is_stop, stop_id in *; cbn; destruct (p_body p); cbn; tauto).
  assert (ND : forall x, In x r -> p_mid x <> p_mid p).
  { intros x X E. pose proof (i_nodup _ _ _ _ _ _ _ _ I) as ND. cbn in ND. inversion ND; subst. apply H1. rewrite <- E. now apply in_map. }
  destruct I. constructor; auto.
  - cbn [map] in *. now rewrite IN.
  - cbn [map] in *. now rewrite M.
  - intros x [<- | X]. rewrite M, IN. apply i_small0. now left. apply i_small0. now right.
  - intros k j X. apply filter_In in X as [X _]. eauto.
  - intros k l x X Y. destruct (i_mv0 k l x X Y) as [A B]. split; auto. intros y [<- | Z] E.
    + rewrite M in E. apply B in E; [ | now left ]. unfold is_meter, is_stop in *. destruct (p_body p); contradiction.
    + apply B; auto. now right.
  - intros d u E. destruct (i_act0 d u E) as [k B]. exists k. rewrite LA. auto.
  - intros u Y. destruct (i_stp0 u Y) as [k [e (B1 & B2 & B3 & B4 & B5 & B6 & B7 & B8 & B9)]]. exists k, e. rewrite LA, W.
    repeat (split; [ now auto | ]). split; [ | split; auto ].
    + intros x X S. apply B7; auto. apply ST; auto.
    + intros X. destruct (B9 X) as [x ([<- | D1] & D2 & D3 & D4)]. exists p'. rewrite IN, M. cbn; auto. exists x. cbn; auto.
  - intros x [<- | X] S.
    + destruct (i_stop0 p (or_introl eq_refl) SP) as [k (B1 & B2 & B3)]. exists k. rewrite IN, W. split; [ auto | ]. split.
      * intros Y. destruct (B2 Y) as [u (D1 & D2 & D3)]. exists u. rewrite LA, M. auto.
      * intros j J. right. rewrite M, look_filter, N.eqb_refl. split; auto. rewrite IP. destruct (B3 j J) as [B | [B _]]; congruence.
    + destruct (i_stop0 x (or_intror X) S) as [k (B1 & B2 & B3)]. exists k. rewrite W. split; [ auto | ]. split.
      * intros Y. destruct (B2 Y) as [u (D1 & D2 & D3)]. exists u. rewrite LA. auto.
      * intros j J. rewrite look_filter. destruct (N.eqb_spec (p_mid x) (p_mid p)). now apply ND in e. auto.
  - intros x j X. rewrite look_filter. destruct (N.eqb_spec (p_mid x) (p_mid p)). discriminate. intros Y.
    destruct X as [<- | X]. now rewrite M in n0. apply i_tm0; auto. now right.
  - intros m j X. rewrite W. eauto.
Qed.

Definition renewed (p : pend) (nid : N) (t t' : tx) : Prop :=
  t_emid t' = t_emid t /\ t_fin t' = t_fin t /\ t_id t' = t_id t
  /\ (is_start p /\ t_smid t = p_mid p /\ t_smid t' = nid \/ ~ (is_start p /\ t_smid t = p_mid p) /\ t_smid t' = t_smid t).
Lemma retry_inv : forall n act stp p r tm mv nid b act' stp',
  Inv n act stp (p :: r) tm mv nid b -> look tm (p_mid p) = None ->
  (forall c t', act' c = Some t' -> exists t, act c = Some t /\ renewed p nid t t') -> (forall c, act c <> None -> act' c <> None) ->
  (forall t', In t' stp' -> exists t, In t stp /\ renewed p nid t t') -> (forall t, In t stp -> exists t', In t' stp' /\ renewed p nid t t') ->
  map t_emid stp' = map t_emid stp ->
  Inv n act' stp' (P nid (p_body p) (p_init p) (p_orig p) :: r) tm mv (N.succ nid) b.
Proof.
  intros n act stp p r tm mv nid b act' stp' I LN HA HA' HS HS' HE.
  set (p' := P nid (p_body p) (p_init p) (p_orig p)).
  assert (SI : is_start p' <-> is_start p) by (unfold is_start, p'; cbn; tauto).
  assert (SO : is_stop p' <-> is_stop p) by (unfold is_stop, p'; cbn; tauto).
  assert (W : forall m, waits (p' :: r) m <-> waits (p :: r) m).
  { intros m. split; intros [x ([<- | A] & B & C)].
    - exists p. rewrite SI in B. cbn in *; auto.
    - exists x. cbn; auto.
    - exists p'. rewrite SI. cbn in *; auto.
    - exists x. cbn; auto. }
  assert (ND : forall x, In x r -> p_mid x <> p_mid p).
  { intros x X E. pose proof (i_nodup _ _ _ _ _ _ _ _ I) as ND. cbn in ND. inversion ND; subst. apply H1. rewrite <- E. now apply in_map. }
  assert (SM := i_small _ _ _ _ _ _ _ _ I).
  assert (LA : forall t t' k, (t_smid t < nid)%N -> renewed p nid t t' -> linked (p :: r) t k -> linked (p' :: r) t' k).
  { intros t t' k T (R1 & R2 & R3 & R4) L x [<- | X] S.
    - rewrite SI in S. specialize (L p (or_introl eq_refl) S). cbn [p_init p_mid p']. destruct R4 as [(_ & R4 & R5) | (R4 & R5)].
      + rewrite L. rewrite R4, R5. tauto.
      + rewrite L, R5. split; intros E. exfalso; auto. lia.
    - specialize (L x (or_intror X) S). rewrite L. destruct R4 as [(_ & R4 & R5) | (R4 & R5)]; rewrite R5; [ | tauto ].
      rewrite R4. split; intros E. now apply ND in E. assert (p_mid x < nid)%N by (apply SM; now right). lia. }
  assert (HM : forall k, In (p_init p, k) (ostop b) -> ~ waits (p :: r) k).
  { intros k O [y ([<- | A] & B & C)]. apply (i_ostop _ _ _ _ _ _ _ _ I) in O. lia.
    apply (i_ostop _ _ _ _ _ _ _ _ I) in O. assert (p_init p < p_init y)%N by (eapply head_first; eauto; apply I). lia. }
  assert (IA := i_act _ _ _ _ _ _ _ _ I). assert (IS := i_stp _ _ _ _ _ _ _ _ I).
  destruct I. constructor; auto.
  - cbn [map p_mid p'] in *. inversion i_nodup0; subst. constructor; auto. intros X. apply in_map_iff in X as [x [E X]].
    assert (p_mid x < nid)%N by (apply SM; now right). lia.
  - intros x [<- | X]. cbn. destruct (SM p (or_introl eq_refl)). lia. destruct (SM x (or_intror X)). lia.
  - intros k i X. apply i_tm_small0 in X. lia.
  - intros k l x X Y. destruct (i_mv0 k l x X Y) as [A B]. split. lia. intros y [<- | Z] E; [ cbn in E; lia | ]. apply B; auto. now right.
  - intros c m X. apply i_cur_small0 in X. lia.
  - intros c m X. eauto.
  - intros c t' E. destruct (HA c t' E) as [t [E' R]]. destruct (IA c t E') as [m (A1 & A2 & A3 & A4 & A5 & A6 & A7)]. exists m.
    assert (LL := LA t t' m A5 R A6). destruct R as (R1 & R2 & R3 & R4). rewrite R1, R2, R3. repeat (split; [ now auto | ]). split; [ | auto ].
    destruct R4 as [(_ & _ & ->) | (_ & ->)]; lia.
  - intros t' X. destruct (HS t' X) as [t [E' R]]. destruct (IS t E') as [m [e (A1 & A2 & A3 & A4 & A5 & A6 & A7 & A8 & A9)]]. exists m, e.
    assert (LL := LA t t' m A4 R A6). destruct R as (R1 & R2 & R3 & R4). rewrite R1, R2. repeat (split; [ now auto | ]).
    split; [ lia | ]. split. destruct R4 as [(_ & _ & ->) | (_ & ->)]; lia. split; [ lia | ]. split; [ auto | ]. split; [ | split; [ auto | ] ].
    + intros x [<- | Y] S; [ cbn; lia | ]. apply A7; auto. now right.
    + rewrite W. intros Y. destruct (A9 Y) as [x ([<- | D1] & D2 & D3 & D4)]. exfalso. eapply HM; eauto. exists x. cbn. auto.
  - intros x [<- | X] S.
    + rewrite SO in S. destruct (i_stop0 p (or_introl eq_refl) S) as [k (B1 & B2 & B3)]. exists k. rewrite W. split; [ auto | ]. split.
      * intros Y. exfalso. eapply HM; eauto.
      * intros j J. right. split. apply look_none. cbn. intros i Z. apply i_tm_small0 in Z. lia.
        destruct (B3 j J) as [B | [_ B]]; [ congruence | exact B ].
    + destruct (i_stop0 x (or_intror X) S) as [k (B1 & B2 & B3)]. exists k. rewrite W. split; [ auto | ]. split; auto.
      intros Y. destruct (B2 Y) as [u (D1 & D2 & D3)]. destruct (HS' u D1) as [u' [U R]]. exists u'. split; [ auto | ].
      destruct (IS u D1) as [m [e (_ & _ & _ & A4 & _)]].
      split. eapply LA; eauto. destruct R as [-> _]. auto.
  - intros x i [<- | X] L. cbn in L. apply look_in in L. apply i_tm_small0 in L. lia. apply i_tm0; auto. now right.
  - intros k u X. destruct (i_ostop0 k u X) as (B & D & E). repeat split; auto; try lia.
  - intros m i X. rewrite W. destruct (i_ans0 m i X). split; auto; lia.
  - now rewrite HE.
Qed.
Definition same_tx (t t' : tx) : Prop := t_emid t' = t_emid t /\ t_fin t' = t_fin t /\ t_smid t' = t_smid t.
Lemma answer_inv : forall n act stp p r tm mv nid b act' stp' tm' tid,
  Inv n act stp (p :: r) tm mv nid b -> is_start p ->
  (forall c t', act' c = Some t' -> exists t, act c = Some t /\ same_tx t t'
     /\ (cur b c = Some (p_init p) -> t_id t' = Some tid) /\ (cur b c <> Some (p_init p) -> t_id t' = t_id t)) ->
  (forall c, act c <> None -> act' c <> None) ->
  (forall t', In t' stp' -> exists t, In t stp /\ same_tx t t') -> (forall t, In t stp -> exists t', In t' stp' /\ same_tx t t') ->
  map t_emid stp' = map t_emid stp ->
  (forall k i, In (k, i) tm' -> (k < nid)%N) ->
  (forall x, In x r -> is_stop x -> In (p_init x, p_init p) (ostop b) -> look tm' (p_mid x) = Some tid) ->
  (forall x, In x r -> ~ (is_stop x /\ In (p_init x, p_init p) (ostop b)) -> look tm' (p_mid x) = look tm (p_mid x)) ->
  Inv n act' stp' r tm' mv nid (Obs (cur b) (ostop b) (ometer b) ((p_init p, tid) :: ans b)).
Proof.
  intros n act stp p r tm mv nid b act' stp' tm' tid I PS HA HA' HS HS' HE HK HT1 HT2.
  assert (D := drop_head_inv _ _ _ _ _ _ _ _ _ I).
  assert (NW : ~ waits r (p_init p)).
  { intros [x (A & B & C)]. assert (p_init p < p_init x)%N by (eapply head_first; eauto; apply I). lia. }
  assert (WP : waits (p :: r) (p_init p)) by (exists p; cbn; auto).
  assert (NA : forall i, ~ In (p_init p, i) (ans b)) by (intros i X; apply (i_ans _ _ _ _ _ _ _ _ I) in X as [_ X]; auto).
  assert (SP := i_small _ _ _ _ _ _ _ _ I p (or_introl eq_refl)).
  assert (LA : forall t t' k, same_tx t t' -> linked r t k -> linked r t' k).
  { intros t t' k (R1 & R2 & R3) L x X S. rewrite R3. now apply L. }
  destruct D. constructor; cbn [cur ostop ometer ans]; auto.
  - eauto.
  - intros c t' E. destruct (HA c t' E) as (t & E' & R & R1 & R2). destruct (i_act0 c t E') as [m (A1 & A2 & A3 & A4 & A5 & A6 & A7)]. exists m.
    assert (LL := LA _ _ _ R A6). destruct R as (R3 & R4 & R5). rewrite R3, R4, R5. repeat (split; [ now auto | ]).
    intros i. cbn [In]. destruct (N.eq_dec m (p_init p)) as [-> | M].
    + rewrite (R1 A1). split. intros [X | X]. congruence. now apply NA in X. intros X. left. congruence.
    + rewrite R2, <- A7. split. intros [X | X]; auto. congruence. auto. congruence.
  - intros t' X. destruct (HS t' X) as [t [E' R]]. destruct (i_stp0 t E') as [m [e (A1 & A2 & A3 & A4 & A5 & A6 & A7 & A8 & A9)]]. exists m, e.
    assert (LL := LA _ _ _ R A6). destruct R as (R1 & R2 & R3). rewrite R1, R2, R3. repeat (split; [ now auto | ]). auto.
  - intros x X S. destruct (i_stop0 x X S) as [k (B1 & B2 & B3)]. exists k. split; [ auto | ]. split.
    + intros Y. destruct (B2 Y) as [u (D1 & D2 & D3)]. destruct (HS' u D1) as [u' [U R]]. exists u'. split; [ auto | ].
      split. eapply LA; eauto. destruct R as [-> _]. auto.
    + intros i. cbn [In]. destruct (N.eq_dec k (p_init p)) as [-> | M].
      * intros [Y | Y]; [ | now apply NA in Y ]. inversion Y; subst. left. auto.
      * intros [Y | Y]; [ congruence | ]. rewrite HT2; auto. intros [_ Z]. apply M. eauto.
  - intros x i X L.
    assert (DC : (is_stop x /\ In (p_init x, p_init p) (ostop b)) \/ ~ (is_stop x /\ In (p_init x, p_init p) (ostop b))).
    { assert (is_stop x \/ ~ is_stop x) by (unfold is_stop; destruct (p_body x); tauto).
      destruct (in_dec (fun a b : N * N => ltac:(repeat decide equality)) (p_init x, p_init p) (ostop b)); tauto. }
    destruct DC as [[A B] | A].
    + rewrite HT1 in L; auto. inversion L; subst. split; auto. exists (p_init p). cbn; auto.
    + rewrite HT2 in L; auto. destruct (i_tm0 x i X L) as [B [m [C E]]]. split; auto. exists m. cbn; auto.
  - intros m i. cbn [In]. intros [X | X]; [ inversion X; subst; split; auto; apply SP | eauto ].
  - intros m i i'. cbn [In]. intros [X | X] [Y | Y]; try (inversion X; subst); try (inversion Y; subst); auto; try (exfalso; eapply NA; eassumption). eauto.
  - now rewrite HE.
Qed.
