(** Lemmas for the device model: monitors. *)
From Coq Require Import ZArith List Bool String Ascii QArith Lia.
From Verif Require Import StrModel StrSpec StrProofs JsonModel JsonProofs DmModel DmSpec DmProofs DmProofs2 DmProofs3.
Import ListNotations.
Local Open Scope string_scope.
Local Open Scope Z_scope.

(** ** The value of a monitor as text *)

Lemma digit6_ok n : isdigit (digit6 n) = true /\ code (digit6 n) = 48 + n mod 10.
Proof. unfold digit6. apply chr_digit. apply Z.mod_pos_bound. lia. Qed.

Lemma float_text_value f : 0 <= f_micro f -> dec_value (fvalue f) (float_text f).
Proof.
  intros P. set (n := f_micro f) in *. set (r := n mod 1000000).
  set (fr := String (digit6 (r / 100000)) (String (digit6 (r / 10000)) (String (digit6 (r / 1000))
    (String (digit6 (r / 100)) (String (digit6 (r / 10)) (String (digit6 r) "")))))).
  assert (R : 0 <= r < 1000000) by (apply Z.mod_pos_bound; lia).
  assert (Q0 : 0 <= n / 1000000) by (apply Z.div_pos; lia).
  destruct (dec_ok (n / 1000000) Q0) as (A & V & NE & _).
  assert (AF : forall s a b c d e g, s ++ String a (String b (String c (String d (String e (String g ""))))) =
             (((((s ++ String a "") ++ String b "") ++ String c "") ++ String d "") ++ String e "") ++ String g "").
  { intros. rewrite !app_assoc_s. reflexivity. }
  destruct (digit6_ok (r / 100000)) as [I1 C1]. destruct (digit6_ok (r / 10000)) as [I2 C2]. destruct (digit6_ok (r / 1000)) as [I3 C3].
  destruct (digit6_ok (r / 100)) as [I4 C4]. destruct (digit6_ok (r / 10)) as [I5 C5]. destruct (digit6_ok r) as [I6 C6].
  assert (D : digits n (dec (n / 1000000) ++ fr)).
  { assert (AL : all_of isdigit (dec (n / 1000000) ++ fr) = true).
    { rewrite all_of_app, A. unfold fr. cbn [all_of]. rewrite I1, I2, I3, I4, I5, I6. reflexivity. }
    assert (VA : digits_value 0 (dec (n / 1000000) ++ fr) = n).
    { unfold fr. rewrite AF.
      assert (ONE : forall s c, all_of isdigit s = true -> isdigit c = true -> all_of isdigit (s ++ String c "") = true).
      { intros s c H1 H2. rewrite all_of_app, H1. cbn. rewrite H2. reflexivity. }
      rewrite !digits_value_app by auto 10. rewrite V, C1, C2, C3, C4, C5, C6.
      assert (E : n = 1000000 * (n / 1000000) + r) by (apply Z.div_mod; lia).
      assert (E1 := Z.div_mod r 10 ltac:(lia)). assert (E2 := Z.div_mod (r / 10) 10 ltac:(lia)).
      assert (E3 := Z.div_mod (r / 100) 10 ltac:(lia)). assert (E4 := Z.div_mod (r / 1000) 10 ltac:(lia)).
      assert (E5 := Z.div_mod (r / 10000) 10 ltac:(lia)). assert (E6 := Z.div_mod (r / 100000) 10 ltac:(lia)).
      rewrite !Zdiv.Zdiv_Zdiv in E2, E3, E4, E5, E6 by lia.
      change (10 * 10) with 100 in *. change (100 * 10) with 1000 in *. change (1000 * 10) with 10000 in *.
      change (10000 * 10) with 100000 in *. change (100000 * 10) with 1000000 in *.
      rewrite (Z.div_small r 1000000) in E6 by lia. lia. }
    rewrite <- VA at 1. apply digits_complete; auto. destruct (dec (n / 1000000)); [congruence|discriminate]. }
  exists (if f_neg f then "-" else ""), (dec (n / 1000000)), fr, n. split; [|split; [exact D|split]].
  - destruct (f_neg f); unfold opt_sign; auto.
  - right. reflexivity.
  - unfold fvalue. fold n. destruct (f_neg f); unfold Qeq; cbn -[Z.mul]; unfold pow10; cbn -[Z.mul]; lia.
Qed.

Lemma float_text_point f : is_integer (float_text f) = false.
Proof.
  destruct (is_integer (float_text f)) eqn:E; auto. exfalso. apply is_integer_literal in E.
  assert (H : forall s, all_of isdigit s = true -> ~ exists a b, s = a ++ String "." b).
  { intros s A (a & b & ->). rewrite all_of_app in A. apply andb_true_iff in A. destruct A as [_ A]. cbn in A. discriminate. }
  assert (P : exists a b, float_text f = a ++ String "." b).
  { unfold float_text. cbv zeta. rewrite <- app_assoc_s. eexists _, _. cbn [append]. reflexivity. }
  destruct E as [(n & L)|E].
  - assert (P2 : forall c s, c <> "."%char -> (exists a b, String c s = a ++ String "." b) -> exists a b, s = a ++ String "." b).
    { intros c s N ([|x a] & b & X); cbn in X; injection X as X1 X2; [congruence|eauto]. }
    destruct L as [n' s' D|n' s' D|n' s' D]; apply digits_sound in D; destruct D as (_ & D & _); apply (H _ D).
    + exact P.
    + apply P2 in P; [exact P|discriminate].
    + apply P2 in P; [exact P|discriminate].
  - destruct P as (a & b & P). destruct E as [E|E]; rewrite E in P; destruct a as [|a0 [|a1 a]]; discriminate.
Qed.

(** ** Maps of monitors *)

Lemma mon_find_some i l m : mon_find i l = Some m -> In (i, m) l.
Proof.
  induction l as [|[j x] l IH]; cbn; [discriminate|]. destruct (Z.eqb_spec i j) as [<- | N]; intros E; [injection E as <-|]; auto.
Qed.
Lemma mon_find_none i l : mon_find i l = None <-> ~ In i (map fst l).
Proof.
  induction l as [|[j x] l IH]; cbn; [tauto|]. destruct (Z.eqb_spec i j) as [<- | N]; [intuition discriminate|]. rewrite IH. intuition.
Qed.

Lemma in_put i m l j x : In (j, x) (mon_put i m l) <-> (j <> i /\ In (j, x) l) \/ (j = i /\ x = m).
Proof.
  unfold mon_put, mon_erase. rewrite in_app_iff, filter_In. cbn [fst]. rewrite negb_true_iff, Z.eqb_neq.
  split.
  - intros [[I N]|[E|[]]]; [left; auto|right; inversion E; auto].
  - intros [[N I]|[-> ->]]; [left; auto|right; left; auto].
Qed.

Lemma in_erase i l j x : In (j, x) (mon_erase i l) <-> j <> i /\ In (j, x) l.
Proof. unfold mon_erase. rewrite filter_In. cbn [fst]. rewrite negb_true_iff, Z.eqb_neq. intuition. Qed.

Lemma NoDup_map_filter {A B} (f : A -> B) p l : NoDup (map f l) -> NoDup (map f (filter p l)).
Proof.
  induction l as [|x l IH]; cbn; auto. intros N. inversion N as [|y z NI N']. subst. destruct (p x); auto. cbn. constructor; auto.
  intros I. apply NI. apply in_map_iff in I. destruct I as (w & E & I). apply filter_In in I. apply in_map_iff. exists w. tauto.
Qed.

Lemma NoDup_app_one {A} (l : list A) x : NoDup l -> ~ In x l -> NoDup (l ++ [x])%list.
Proof.
  induction l as [|y l IH]; cbn; intros N I; [constructor; [intros []|constructor]|]. inversion N as [|u v NI N']. subst. constructor.
  - rewrite in_app_iff. intros [X|[X|[]]]; subst; auto.
  - apply IH; auto.
Qed.

Lemma put_nodup i m l : NoDup (map fst l) -> NoDup (map fst (mon_put i m l)).
Proof.
  intros N. unfold mon_put. rewrite map_app. apply NoDup_app_one; [apply NoDup_map_filter; auto|].
  cbn [fst]. intros I. apply in_map_iff in I. destruct I as ([j x] & E & I). apply in_erase in I. cbn in E. intuition.
Qed.

Lemma upd_keys k f l : map fst (upd_meta k f l) = map fst l.
Proof. induction l as [|[k' m] l IH]; cbn; auto. destruct (key_same k k'); cbn; congruence. Qed.

Lemma in_upd k f l : NoDup (map fst l) -> forall k' m', In (k', m') (upd_meta k f l) <->
  (k' <> k /\ In (k', m') l) \/ (k' = k /\ exists m, In (k, m) l /\ m' = f m).
Proof.
  induction l as [|[k0 m0] l IH]; cbn [upd_meta map]; intros N k' m'.
  - cbn. split; [tauto|]. intros [[_ []]|(_ & m & [] & _)].
  - inversion N as [|x y NI N']. subst. destruct (key_same k k0) eqn:K.
    + apply key_same_ok in K. subst k0. cbn [In]. split.
      * intros [E|I].
        -- inversion E. subst. right. split; auto. exists m0. auto.
        -- left. split; auto. intros ->. apply NI. apply in_map_iff. exists (k, m'). auto.
      * intros [[NK [E|I]]|(-> & m & [E|I] & ->)]; [inversion E; congruence|auto|inversion E; subst; auto|].
        exfalso. apply NI. apply in_map_iff. exists (k, m). auto.
    + apply key_same_false in K. cbn [In]. rewrite IH by auto. split.
      * intros [E|[[NK I]|(-> & m & I & ->)]]; [left; inversion E; subst; split; [congruence|auto]|left; auto|right; split; auto; exists m; auto].
      * intros [[NK [E|I]]|(-> & m & [E|I] & ->)]; [auto|auto|inversion E; congruence|right; right; split; auto; exists m; auto].
Qed.

Lemma in_map_meta (f : meta -> meta) l : forall k m', In (k, m') (map (fun e : key * meta => (fst e, f (snd e))) l) <-> exists m, In (k, m) l /\ m' = f m.
Proof.
  intros k m'. rewrite in_map_iff. split.
  - intros ([k0 m] & E & I). cbn in E. inversion E. subst. exists m. auto.
  - intros (m & I & ->). exists (k, m). auto.
Qed.

Lemma id_in_map_ok i d : id_in_map i d = true <-> exists k mo, in_memory d k i mo.
Proof.
  unfold id_in_map. rewrite existsb_exists. split.
  - intros ([k m] & I & H). cbn [snd] in H. destruct (mon_find i (m_mons m)) as [mo|] eqn:F; [|discriminate].
    apply mon_find_some in F. exists k, mo, m. auto.
  - intros (k & mo & m & K & I). exists (k, m). split; auto. cbn [snd]. destruct (mon_find i (m_mons m)) eqn:F; auto.
    apply mon_find_none in F. exfalso. apply F. apply in_map_iff. exists (i, mo). auto.
Qed.

Lemma mon_same d k k' mo mo' : monitors_ok d -> In (k, mo) (d_mons d) -> In (k', mo') (d_mons d) -> mo_id mo = mo_id mo' ->
  k = k' /\ mo = mo'.
Proof.
  intros (_ & _ & N & _) A B E. unfold ids in N. induction (d_mons d) as [|x l IH]; [contradiction|].
  cbn [map] in N. inversion N as [|y z NI N']. subst. destruct A as [A|A], B as [B|B].
  - subst x. inversion B. auto.
  - subst x. exfalso. apply NI. apply in_map_iff. exists (k', mo'). split; auto.
  - subst x. exfalso. apply NI. apply in_map_iff. exists (k, mo). split; auto.
  - auto.
Qed.

(** ** Setting a monitor *)

Definition req_key (q : monitor_req) : key := (q_comp q, q_var q).
Definition row_id (d : dm) (q : monitor_req) : Z := match q_id q with Some i => i | None => d_seq d + 1 end.

Lemma set_data_cases d q cfg ok : tables_ok d ->
  match set_monitoring_data d q cfg ok with
  | (d', Some mo) => ok = true /\ mo_id mo = clamp32 (row_id d q) /\ requested q cfg mo /\ reference_of d q mo /\
      (q_type q = Delta -> exists r s, stored d (req_key q) Actual r /\ a_value r = Some s) /\
      d' = set_mons d (filter (fun e => negb (mo_id (snd e) =? row_id d q)) (d_mons d) ++
              [(req_key q, mkMon (row_id d q) (mo_severity mo) (mo_tx mo) (mo_type mo) (mo_value mo) (mo_config mo) (mo_ref mo))])%list
            (Z.max (d_seq d) (row_id d q))
  | (d', None) => d' = d /\ (ok = false \/ q_type q = Delta /\ forall r, stored d (req_key q) Actual r -> a_value r = None)
  end.
Proof.
  intros T. unfold set_monitoring_data. fold (req_key q) (row_id d q). destruct (mt_eqb (q_type q) Delta) eqn:E.
  - apply mt_eqb_ok in E. destruct (get_variable_attribute d (req_key q) Actual) as [r|] eqn:G.
    + apply attribute_some in G. destruct (a_value r) as [s|] eqn:V.
      * destruct ok; cbn [negb]; [|auto]. cbn. repeat split; auto; try congruence; intros; exists r, s; auto.
      * split; auto. right. split; auto. intros r' S. destruct T as [_ NA]. rewrite (stored_fun _ _ _ _ _ NA S G). auto.
    + split; auto. right. split; auto. intros r' S. apply attribute_stored in S; [congruence|apply T].
  - assert (ND : q_type q <> Delta) by (intros X; apply mt_eqb_ok in X; congruence).
    destruct ok; cbn [negb]; [|auto]. cbn. repeat split; auto; intros; contradiction.
Qed.

Lemma set_monitor_cases d q cfg ok : tables_ok d -> monitors_ok d -> own_id d q ->
  let '(d', st, i) := set_monitor d q cfg ok in
  d_seq d' <= 2147483647 ->
  (st = MAccepted /\ exists m mo, known d (req_key q) m /\ monitor_value_ok (m_char m) q = true /\ ok = true /\
      i = Some (mo_id mo) /\ mo_id mo = row_id d q /\ requested q cfg mo /\ reference_of d q mo /\
      monitor_put d d' (req_key q) mo /\ monitors_ok d' /\
      (forall j, q_id q = Some j -> exists mo0, In (req_key q, mo0) (d_mons d) /\ mo_id mo0 = j)) \/
  (st <> MAccepted /\ d' = d /\ i = q_id q).
Proof.
  intros T M OWN. unfold set_monitor.
  destruct (match q_id q with Some i => negb (id_in_map i d) | None => false end) eqn:IDM; [right; repeat split; auto; discriminate|].
  destruct (negb (has_component (q_comp q) d)) eqn:HC; [right; repeat split; auto; destruct (q_id q); discriminate|].
  fold (req_key q).
  destruct (find_meta (req_key q) (d_map d)) as [m|] eqn:FM; [|right; repeat split; auto; destruct (q_id q); discriminate].
  destruct (monitor_value_ok (m_char m) q) eqn:VOK; cbn [negb]; [|right; repeat split; auto; discriminate].
  match goal with |- context [if ?b then (d, MDuplicate, q_id q) else _] => destruct b eqn:DUP end; [right; repeat split; auto; discriminate|].
  assert (C := set_data_cases d q cfg ok T). destruct (set_monitoring_data d q cfg ok) as [d1 [mo|]].
  2:{ intros _. destruct C as [-> _]. right. repeat split; auto. discriminate. }
  destruct C as (OK & ID & RQ & RF & DL & ->). cbn [d_seq set_map set_mons]. intros SB.
  assert (RB : row_id d q <= 2147483647) by lia.
  assert (CL : clamp32 (row_id d q) = row_id d q) by (unfold clamp32; destruct (Z.leb_spec (row_id d q) 2147483647); [auto|lia]).
  rewrite CL in ID.
  assert (KM : known d (req_key q) m) by (apply find_meta_some; auto).
  assert (PREV : forall j, q_id q = Some j -> exists mo0, In (req_key q, mo0) (d_mons d) /\ mo_id mo0 = j).
  { intros j Q. rewrite Q in IDM. apply negb_false_iff in IDM. apply id_in_map_ok in IDM. destruct IDM as (k & mo0 & IM).
    apply M in IM. destruct IM as [I1 I2]. destruct (OWN j k mo0 Q I1 I2) as [-> _]. exists mo0. auto. }
  assert (EMO : mkMon (row_id d q) (mo_severity mo) (mo_tx mo) (mo_type mo) (mo_value mo) (mo_config mo) (mo_ref mo) = mo)
    by (rewrite <- ID; destruct mo; reflexivity).
  rewrite EMO. set (d' := set_map _ _).
  assert (INM : forall k' mo', In (k', mo') (d_mons d') <-> (k', mo') = (req_key q, mo) \/ (In (k', mo') (d_mons d) /\ mo_id mo' <> mo_id mo)).
  { intros k' mo'. unfold d'. cbn [d_mons set_map set_mons]. rewrite in_app_iff, filter_In. cbn [snd In].
    rewrite negb_true_iff, Z.eqb_neq, ID. intuition. }
  destruct M as (M0 & M1 & M2 & M3 & M4 & M5).
  assert (OTHER : forall k' mo', In (k', mo') (d_mons d) -> mo_id mo' = mo_id mo -> k' = req_key q).
  { intros k' mo' I E. unfold row_id in ID. destruct (q_id q) as [j|] eqn:Q.
    - destruct (OWN j k' mo' Q I) as [-> _]; [congruence|auto].
    - apply M3 in I. lia. }
  left. split; auto. exists m, mo. repeat match goal with |- _ /\ _ => split end; auto.
  - unfold monitor_put. split; [reflexivity|]. split; [unfold d'; cbn [d_seq set_map set_mons]; rewrite ID; auto|exact INM].
  - unfold monitors_ok. repeat match goal with |- _ /\ _ => split end.
    + unfold d'. cbn [d_seq set_map set_mons]. lia.
    + unfold d'. cbn [d_map set_map set_mons]. rewrite upd_keys. auto.
    + unfold d', ids. cbn [d_mons set_map set_mons]. rewrite map_app. cbn [map snd]. apply NoDup_app_one; [apply NoDup_map_filter; auto|].
      intros I. apply in_map_iff in I. destruct I as (e & E & I). apply filter_In in I. destruct I as [_ I].
      apply negb_true_iff, Z.eqb_neq in I. congruence.
    + intros k mo' I. apply INM in I. unfold d'. cbn [d_seq set_map set_mons]. destruct I as [E|[I N]].
      * inversion E. subst. rewrite ID. split; [|lia]. unfold row_id. destruct (q_id q) as [j|] eqn:Q.
        -- destruct (PREV j eq_refl) as (mo0 & I0 & E0). apply M3 in I0. lia.
        -- lia.
      * apply M3 in I. lia.
    + intros k m' K. unfold known, d' in K. cbn [d_map set_map set_mons] in K. apply in_upd in K; auto.
      destruct K as [[_ K]|(-> & m0 & K & ->)]; [eapply M4; eauto|]. cbn [m_mons]. apply put_nodup. eapply M4; eauto.
    + intros k j mo'. rewrite INM. unfold in_memory, known, d'. cbn [d_map set_map set_mons]. split.
      * intros (m' & K & I). apply in_upd in K; auto. destruct K as [[NK K]|(-> & m0 & K & ->)].
        -- assert (IM : in_memory d k j mo') by (exists m'; auto). apply M5 in IM. destruct IM as [I1 I2]. split; auto. right. split; auto.
           intros X. apply NK. eapply OTHER; eauto.
        -- cbn [m_mons] in I. apply in_put in I. destruct I as [[NJ I]|[-> ->]]; [|auto].
           assert (IM : in_memory d (req_key q) j mo') by (exists m0; auto). apply M5 in IM. destruct IM as [I1 I2]. split; auto. right. split; auto. congruence.
      * intros [[E|[I N]] J].
        -- inversion E. subst. eexists. split; [apply in_upd; auto; right; split; auto; exists m; split; [exact KM|reflexivity]|].
           cbn [m_mons]. apply in_put. right. auto.
        -- assert (IM : in_memory d k j mo') by (apply M5; auto). destruct IM as (m' & K & IJ).
           destruct (key_dec k (req_key q)) as [-> | NK].
           ++ eexists. split; [apply in_upd; auto; right; split; auto; exists m'; split; [exact K|reflexivity]|].
              cbn [m_mons]. apply in_put. left. split; auto. congruence.
           ++ exists m'. split; auto. apply in_upd; auto.
Qed.

Lemma monitor_value_ok_fits ch q :
  monitor_value_ok ch q = true <->
  monitor_fits ch q (q_type q <> Periodic /\ q_type q <> PeriodicClockAligned /\
                     value_ok ch (float_text (q_value q)) (allow_zero (q_comp q) (q_var q)) = true).
Proof.
  unfold monitor_value_ok, monitor_fits. destruct (ch_monitoring ch); [|intuition discriminate].
  destruct (q_type q) eqn:T; cbn [mt_eqb andb orb].
  - split; [intros; repeat split; auto; try discriminate; right; right; right; repeat split; auto; discriminate|].
    intros (_ & _ & [H|[H|[(H & _)|(_ & _ & H)]]]); auto; discriminate.
  - split; [intros; repeat split; auto; try discriminate; right; right; right; repeat split; auto; discriminate|].
    intros (_ & _ & [H|[H|[(H & _)|(_ & _ & H)]]]); auto; discriminate.
  - destruct (f_neg (q_value q)) eqn:N; [split; [discriminate|intros (_ & X & _); specialize (X eq_refl); discriminate]|].
    assert (D : (match ch_type ch with TDecimal | TInteger => true | _ => false end) = true \/
                (match ch_type ch with TDecimal | TInteger => true | _ => false end) = false /\ ch_type ch <> TDecimal /\ ch_type ch <> TInteger)
      by (destruct (ch_type ch); auto; right; repeat split; discriminate).
    destruct D as [D|(D & D1 & D2)]; rewrite D; cbn [negb].
    + split.
      * intros; repeat split; auto; try discriminate. right; right; right. repeat split; auto; discriminate.
      * intros (_ & _ & [H|[H|[(H & H1 & H2)|(_ & _ & H)]]]); auto; try discriminate.
        exfalso. destruct (ch_type ch); try discriminate; congruence.
    + split; auto. intros _. repeat split; auto. right; right; left. auto.
  - split; auto. intros _. repeat split; auto; discriminate.
  - split; auto. intros _. repeat split; auto; discriminate.
Qed.

Lemma fits_ext ch q A B : (A <-> B) -> (monitor_fits ch q A <-> monitor_fits ch q B).
Proof. unfold monitor_fits. tauto. Qed.

Lemma dec_value_same q q' s : dec_value q s -> dec_value q' s -> (q == q')%Q.
Proof.
  intros A B. destruct (dec_value_parts _ _ A) as (sg & i & f & P & _).
  rewrite (dec_value_unique _ _ _ _ _ _ P A eq_refl), (dec_value_unique _ _ _ _ _ _ P B eq_refl). reflexivity.
Qed.

Lemma monitor_decimal ch q : ch_type ch = TDecimal -> 0 <= f_micro (q_value q) ->
  (monitor_value_ok ch q = true <->
   monitor_fits ch q (q_type q <> Periodic /\ q_type q <> PeriodicClockAligned /\ float_range (fvalue (q_value q)) /\
      (zero_allowed (q_comp q) (q_var q) /\ (fvalue (q_value q) == 0)%Q \/
       at_least (ch_min ch) (fvalue (q_value q)) /\ at_most (ch_max ch) (fvalue (q_value q))))).
Proof.
  intros T P. rewrite monitor_value_ok_fits. apply fits_ext.
  rewrite (value_ok_decimal _ _ _ T). assert (V := float_text_value _ P).
  assert (X : (exists q0, dec_value q0 (float_text (q_value q)) /\ float_range q0 /\
        (allow_zero (q_comp q) (q_var q) = true /\ (q0 == 0)%Q \/ at_least (ch_min ch) q0 /\ at_most (ch_max ch) q0)) <->
      float_range (fvalue (q_value q)) /\ (zero_allowed (q_comp q) (q_var q) /\ (fvalue (q_value q) == 0)%Q \/
       at_least (ch_min ch) (fvalue (q_value q)) /\ at_most (ch_max ch) (fvalue (q_value q)))).
  { split.
    - intros (q0 & D & R & L). assert (E : (q0 == fvalue (q_value q))%Q) by (eapply dec_value_same; eauto). split.
      + eapply float_range_eq; eauto.
      + rewrite allow_zero_ok in L. destruct L as [[Z0 L]|[L1 L2]]; [left; split; auto; rewrite <- E; auto|].
        right. split; [eapply at_least_eq; eauto|eapply at_most_eq; eauto].
    - intros (R & L). exists (fvalue (q_value q)). rewrite allow_zero_ok. auto. }
  rewrite X. tauto.
Qed.

Lemma monitor_integer ch q : ch_type ch = TInteger -> monitor_value_ok ch q = true -> q_type q = Periodic \/ q_type q = PeriodicClockAligned.
Proof.
  intros T H. apply monitor_value_ok_fits in H. destruct H as (_ & _ & [H|[H|[(_ & _ & H)|(_ & _ & H)]]]); auto; [congruence|].
  exfalso. unfold value_ok, validate_value in H. rewrite T, float_text_point in H. discriminate.
Qed.

Lemma new_monitor_ok d q cfg ok : tables_ok d -> q_id q = None ->
  new_monitor_outcome d q (fun ch => monitor_value_ok ch q = true) ok (snd (fst (set_monitor d q cfg ok))).
Proof.
  intros T N. unfold set_monitor. rewrite N. fold (req_key q).
  destruct (negb (has_component (q_comp q) d)) eqn:HC.
  { apply nm_no_component. rewrite <- has_component_ok. apply negb_true_iff in HC. congruence. }
  apply negb_false_iff, has_component_ok in HC.
  destruct (find_meta (req_key q) (d_map d)) as [m|] eqn:FM; [|apply nm_no_variable; auto; apply find_meta_none; auto].
  assert (K := FM). apply find_meta_some in K. fold (known d (req_key q) m) in K.
  destruct (monitor_value_ok (m_char m) q) eqn:VOK; cbn [negb].
  2:{ eapply nm_bad; eauto. cbn. congruence. }
  destruct (existsb _ (m_mons m)) eqn:EX.
  - apply existsb_exists in EX. destruct EX as ([i mo] & I & E). cbn [snd] in E. apply andb_true_iff in E. destruct E as [E1 E2].
    apply mt_eqb_ok in E1. apply Z.eqb_eq in E2. eapply nm_duplicate; eauto. exists m. split; [exact K|exact I].
  - assert (ND : forall i mo, in_memory d (req_key q) i mo -> ~ (mo_type mo = q_type q /\ mo_severity mo = q_severity q)).
    { intros i mo (m' & K' & I) [E1 E2]. rewrite (known_fun d _ _ _ (proj1 T) K' K) in I.
      assert (X : existsb (fun e : Z * monitor => mt_eqb (mo_type (snd e)) (q_type q) && (mo_severity (snd e) =? q_severity q)) (m_mons m) = true).
      { apply existsb_exists. exists (i, mo). split; auto. cbn [snd]. rewrite E1, E2, Z.eqb_refl, andb_true_r. apply mt_eqb_ok. auto. }
      congruence. }
    assert (C := set_data_cases d q cfg ok T). destruct (set_monitoring_data d q cfg ok) as [d1 [mo|]]; cbn [fst snd].
    + destruct C as (OK & _ & _ & _ & DL & _). eapply nm_ok; eauto.
    + destruct C as (_ & [F|[F1 F2]]); [eapply nm_failed; eauto|eapply nm_no_reference; eauto].
Qed.

Lemma outcome_fun d q A ok st st' : tables_ok d ->
  new_monitor_outcome d q A ok st -> new_monitor_outcome d q A ok st' -> st = st'.
Proof.
  intros T H H'.
  assert (KC : forall m, known d (q_comp q, q_var q) m -> known_component d (q_comp q)) by (intros m K; eapply known_comp; eauto).
  assert (KF : forall m m', known d (q_comp q, q_var q) m -> known d (q_comp q, q_var q) m' -> m = m') by (intros; eapply known_fun; eauto; apply T).
  destruct H as [H1|H1 H2|m H1 H2|m i mo H1 H2 H3 H4 H5|m H1 H2 H3 H4 H5|m H1 H2 H3 H4|m H1 H2 H3 H4 H5];
    destruct H' as [H1'|H1' H2'|m' H1' H2'|m' i' mo' H1' H2' H3' H4' H5'|m' H1' H2' H3' H4' H5'|m' H1' H2' H3' H4'|m' H1' H2' H3' H4' H5'];
    auto; try (exfalso; apply H1; eauto; fail); try (exfalso; apply H1'; eauto; fail);
    try (exfalso; eapply H2; eauto; fail); try (exfalso; eapply H2'; eauto; fail);
    try (exfalso; assert (EM : m = m') by eauto; subst m'; contradiction);
    try (exfalso; eapply H4'; eauto; fail); try (exfalso; eapply H4; eauto; fail); try congruence.
  - exfalso. destruct (H5' H3) as (r & s & S & V). rewrite (H5 r S) in V. discriminate.
  - exfalso. destruct (H5 H3') as (r & s & S & V). rewrite (H5' r S) in V. discriminate.
Qed.

(** ** Clearing *)

Lemma filter_all {A} (f : A -> bool) l : (forall x, In x l -> f x = true) -> filter f l = l.
Proof. induction l as [|x l IH]; cbn; intros H; auto. rewrite (H x) by auto. f_equal. apply IH. auto. Qed.
Lemma filter_none {A} (f : A -> bool) l : (forall x, In x l -> f x = false) -> filter f l = [].
Proof. induction l as [|x l IH]; cbn; intros H; auto. rewrite (H x) by auto. auto. Qed.

Lemma filter_id d i : NoDup (ids (d_mons d)) ->
  (forall k mo, In (k, mo) (d_mons d) -> mo_id mo <> i) /\ filter (fun e : key * monitor => mo_id (snd e) =? i) (d_mons d) = [] \/
  exists k mo, In (k, mo) (d_mons d) /\ mo_id mo = i /\ filter (fun e : key * monitor => mo_id (snd e) =? i) (d_mons d) = [(k, mo)].
Proof.
  unfold ids. induction (d_mons d) as [|[k mo] l IH]; intros N; [left; split; [intros k mo []|auto]|].
  cbn [map snd] in N. inversion N as [|y z NI N']. subst. cbn [filter snd]. destruct (Z.eqb_spec (mo_id mo) i) as [E|E].
  - right. exists k, mo. split; [left; auto|]. split; auto. f_equal. apply filter_none. intros x I. apply Z.eqb_neq. intros X.
    apply NI. apply in_map_iff. exists x. split; auto. congruence.
  - destruct (IH N') as [[A B]|(k' & mo' & I & E' & B)].
    + left. split; auto. intros k' mo' [X|X]; [inversion X; subst; auto|eauto].
    + right. exists k', mo'. split; [right; auto|auto].
Qed.

Lemma dm_eta d : set_mons d (d_mons d) (d_seq d) = d.
Proof. destruct d. reflexivity. Qed.

(** Removing the same monitors from memory and from the database. *)
Lemma remove_ok d (g : monitor -> bool) (f : Z * monitor -> bool) :
  monitors_ok d -> (forall k i mo, in_memory d k i mo -> f (i, mo) = negb (g mo)) ->
  let d' := set_map (set_mons d (filter (fun e : key * monitor => negb (g (snd e))) (d_mons d)) (d_seq d))
                    (map (fun e => (fst e, mkMeta (m_char (snd e)) (filter f (m_mons (snd e))))) (d_map d)) in
  monitors_ok d' /\ monitors_removed d d' (fun mo => g mo = true).
Proof.
  intros (M0 & M1 & M2 & M3 & M4 & M5) F d'.
  assert (R : monitors_removed d d' (fun mo => g mo = true)).
  { split; [reflexivity|]. split; [reflexivity|]. intros k mo. unfold d'. cbn [d_mons set_map set_mons]. rewrite filter_In. cbn [snd].
    rewrite negb_true_iff, not_true_iff_false. tauto. }
  split; auto. destruct R as (_ & _ & R). unfold monitors_ok. repeat match goal with |- _ /\ _ => split end.
  - exact M0.
  - unfold d'. cbn [d_map set_map]. rewrite map_map. cbn [fst]. auto.
  - unfold ids, d'. cbn [d_mons set_map set_mons]. apply NoDup_map_filter. auto.
  - intros k mo I. apply R in I. unfold d'. cbn [d_seq set_map set_mons]. apply (M3 k). tauto.
  - intros k m K. unfold known, d' in K. cbn [d_map set_map] in K. rewrite in_map_iff in K. destruct K as ([k0 m0] & E & K). cbn [fst snd] in E. inversion E. subst.
    cbn [m_mons]. apply NoDup_map_filter. eapply M4; eauto.
  - intros k i mo. rewrite R. unfold in_memory, known, d'. cbn [d_map set_map]. split.
    + intros (m & K & I). rewrite in_map_iff in K. destruct K as ([k0 m0] & E & K). cbn [fst snd] in E. inversion E. subst. cbn [m_mons] in I.
      apply filter_In in I. destruct I as [I G]. assert (IM : in_memory d k i mo) by (exists m0; auto). rewrite (F _ _ _ IM) in G.
      apply negb_true_iff in G. apply M5 in IM. rewrite G. intuition discriminate.
    + intros ((I & G) & E). assert (IM : in_memory d k i mo) by (apply M5; auto). assert (IM' := IM). destruct IM' as (m & K & IJ).
      eexists. split; [apply in_map_iff; exists (k, m); split; [reflexivity|exact K]|]. cbn [m_mons fst snd]. apply filter_In. split; auto.
      rewrite (F _ _ _ IM). apply negb_true_iff, not_true_iff_false. auto.
Qed.

Lemma clear_monitor_cases d i ap ok : monitors_ok d ->
  let '(d', st) := clear_monitor d i ap ok in
  match st with
  | CNotFound => d' = d /\ forall k mo, In (k, mo) (d_mons d) -> mo_id mo <> i
  | CRejected => d' = d /\ exists k mo, In (k, mo) (d_mons d) /\ mo_id mo = i /\ (ok = false \/ ap = false /\ mo_config mo <> Custom)
  | CAccepted => ok = true /\ monitors_ok d' /\ monitors_removed d d' (fun mo => mo_id mo = i) /\
      exists k mo, In (k, mo) (d_mons d) /\ mo_id mo = i /\ (ap = true \/ mo_config mo = Custom)
  end.
Proof.
  intros M. assert (M' := M). destruct M' as (M0 & M1 & M2 & M3 & M4 & M5). unfold clear_monitor, clear_variable_monitor.
  destruct (filter_id d i M2) as [[N E]|(k & mo & I & ID & E)]; rewrite E; cbn [List.length Nat.eqb negb]; [split; auto|].
  destruct ok; cbn [negb]; [|split; [auto|exists k, mo; auto]].
  assert (HIT : forall e, In e (d_mons d) -> (mo_id (snd e) =? i) = true -> e = (k, mo)).
  { intros e Ie He. assert (X : In e (filter (fun e : key * monitor => mo_id (snd e) =? i) (d_mons d))) by (apply filter_In; auto).
    rewrite E in X. destruct X as [X|[]]. auto. }
  destruct (ap || cfg_eqb (mo_config mo) Custom) eqn:AL.
  - assert (FE : filter (fun e : key * monitor => (mo_id (snd e) =? i) && (ap || cfg_eqb (mo_config (snd e)) Custom)) (d_mons d)
                 = filter (fun e : key * monitor => mo_id (snd e) =? i) (d_mons d)).
    { apply filter_ext_in. intros e Ie. destruct (mo_id (snd e) =? i) eqn:X; auto. rewrite (HIT e Ie X). cbn [snd andb]. auto. }
    assert (FN : filter (fun e : key * monitor => negb ((mo_id (snd e) =? i) && (ap || cfg_eqb (mo_config (snd e)) Custom))) (d_mons d)
                 = filter (fun e : key * monitor => negb (mo_id (snd e) =? i)) (d_mons d)).
    { apply filter_ext_in. intros e Ie. destruct (mo_id (snd e) =? i) eqn:X; auto. rewrite (HIT e Ie X). cbn [snd andb]. rewrite AL. auto. }
    rewrite FE, FN, E. cbn [List.length Nat.eqb].
    pose proof (remove_ok d (fun m => mo_id m =? i) (fun e => negb (i =? fst e)) M) as R. cbv zeta in R. cbn [d_map set_mons] in *.
    destruct R as [R1 R2].
    { intros k' j mo' IM. apply M5 in IM. destruct IM as [_ <-]. cbn [fst]. rewrite Z.eqb_sym. auto. }
    split; auto. split; [exact R1|]. split.
    + destruct R2 as (A & B & C). split; [exact A|]. split; [exact B|]. intros k' mo'. rewrite C, Z.eqb_eq. tauto.
    + exists k, mo. split; auto. split; auto. apply orb_true_iff in AL. destruct AL; auto. right. apply cfg_eqb_ok. auto.
  - apply orb_false_iff in AL. destruct AL as [-> CF].
    assert (FE : filter (fun e : key * monitor => (mo_id (snd e) =? i) && (false || cfg_eqb (mo_config (snd e)) Custom)) (d_mons d) = []).
    { apply filter_none. intros e Ie. destruct (mo_id (snd e) =? i) eqn:X; auto. rewrite (HIT e Ie X). cbn [snd andb orb]. auto. }
    assert (FN : filter (fun e : key * monitor => negb ((mo_id (snd e) =? i) && (false || cfg_eqb (mo_config (snd e)) Custom))) (d_mons d) = d_mons d).
    { apply filter_all. intros e Ie. destruct (mo_id (snd e) =? i) eqn:X; auto. rewrite (HIT e Ie X). cbn [snd andb orb]. rewrite CF. auto. }
    rewrite FE, FN, dm_eta. cbn [List.length Nat.eqb]. split; auto. exists k, mo. split; auto. split; auto. right. split; auto.
    intros X. apply cfg_eqb_ok in X. congruence.
Qed.

Lemma clear_custom_ok d : monitors_ok d ->
  let '(d', n) := clear_custom_monitors d true in
  monitors_ok d' /\ monitors_removed d d' (fun mo => mo_config mo = Custom) /\
  n = Z.of_nat (List.length (filter (fun e : key * monitor => cfg_eqb (mo_config (snd e)) Custom) (d_mons d))).
Proof.
  intros M. unfold clear_custom_monitors. cbn [d_map set_mons].
  pose proof (remove_ok d (fun m => cfg_eqb (mo_config m) Custom) (fun e => negb (cfg_eqb (mo_config (snd e)) Custom)) M) as R.
  cbv zeta in R. cbn [d_map set_mons] in R. destruct R as [R1 R2]; [intros; reflexivity|].
  split; [exact R1|]. split; auto. destruct R2 as (A & B & C). split; [exact A|]. split; [exact B|].
  intros k mo. rewrite C, cfg_eqb_ok. tauto.
Qed.

(** ** The reference of a delta monitor *)

Definition referenced (d d' : dm) (i : Z) (r : string) : Prop :=
  d_attrs d' = d_attrs d /\ d_seq d' = d_seq d /\
  (forall k mo, In (k, mo) (d_mons d') <->
     exists mo0, In (k, mo0) (d_mons d) /\ (mo_id mo0 <> i /\ mo = mo0 \/ mo_id mo0 = i /\ mo = with_ref mo0 r)).

Lemma find_holder_ok i l k m mo : find_holder i l = Some (k, m, mo) -> In (k, m) l /\ In (i, mo) (m_mons m).
Proof.
  induction l as [|[k' m'] l IH]; cbn; [discriminate|]. destruct (mon_find i (m_mons m')) as [x|] eqn:F.
  - intros E. inversion E. subst. apply mon_find_some in F. auto.
  - intros E. apply IH in E. tauto.
Qed.
Lemma find_holder_none i l : find_holder i l = None -> forall k m mo, In (k, m) l -> ~ In (i, mo) (m_mons m).
Proof.
  induction l as [|[k' m'] l IH]; cbn; [contradiction|]. destruct (mon_find i (m_mons m')) as [x|] eqn:F; [discriminate|].
  intros E k m mo [I|I]; [|eauto]. inversion I. subst. intros X. apply mon_find_none in F. apply F. apply in_map_iff. exists (i, mo). auto.
Qed.

Lemma reference_cases d i r ok : monitors_ok d ->
  let '(d', done) := update_monitor_reference d i r ok in
  (done = true /\ ok = true /\ monitors_ok d' /\ referenced d d' i r /\
     exists k mo m, In (k, mo) (d_mons d) /\ mo_id mo = i /\ known d k m /\ trivial_delta (m_char m) mo = true) \/
  (done = false /\ d' = d /\
     (ok = false \/ (forall k mo m, In (k, mo) (d_mons d) -> mo_id mo = i -> known d k m -> trivial_delta (m_char m) mo = false))).
Proof.
  intros M. assert (M' := M). destruct M' as (M0 & M1 & M2 & M3 & M4 & M5). unfold update_monitor_reference.
  destruct (find_holder i (d_map d)) as [[[k m] mo]|] eqn:FH.
  2:{ right. split; auto. split; auto. right. intros k mo m I E K. exfalso. assert (IM : in_memory d k i mo) by (apply M5; auto).
      destruct IM as (m' & K' & I'). apply (find_holder_none _ _ FH k m' mo K' I'). }
  apply find_holder_ok in FH. destruct FH as [K IJ]. fold (known d k m) in K.
  assert (IM : in_memory d k i mo) by (exists m; auto). apply M5 in IM. destruct IM as [I ID].
  destruct (trivial_delta (m_char m) mo) eqn:TD; cbn [negb].
  2:{ right. split; auto. split; auto. right. intros k' mo' m' I' E' K'. destruct (mon_same d k' k mo' mo M I' I) as [-> ->]; [congruence|].
      rewrite (known_fun d _ _ _ M1 K' K). auto. }
  destruct ok; cbn [negb]; [|right; auto].
  destruct (filter_id d i M2) as [[N E]|(k' & mo' & I' & ID' & E)]; [exfalso; apply (N k mo); auto|]. rewrite E. cbn [List.length Nat.eqb].
  left. split; auto. split; auto.
  set (d' := set_map _ _).
  assert (REF : referenced d d' i r).
  { split; [reflexivity|]. split; [reflexivity|]. intros k0 mo0. unfold d'. cbn [d_mons set_map set_mons]. rewrite in_map_iff. split.
    - intros ([k1 mo1] & E1 & I1). cbn [fst snd] in E1. destruct (Z.eqb_spec (mo_id mo1) i) as [X|X]; inversion E1 as [[EK EM]]; rewrite <- EK; exists mo1; split; auto.
    - intros (mo1 & I1 & [[N1 ->]|[E1 ->]]); exists (k0, mo1); cbn [fst snd]; split; auto.
      + destruct (Z.eqb_spec (mo_id mo1) i); [contradiction|auto].
      + rewrite E1, Z.eqb_refl. auto. }
  assert (KEEP : forall x : key * monitor, mo_id (snd (if mo_id (snd x) =? i then (fst x, with_ref (snd x) r) else x)) = mo_id (snd x))
    by (intros x; destruct (mo_id (snd x) =? i); reflexivity).
  split; [|split; [exact REF|exists k, mo, m; auto]]. destruct REF as (_ & _ & REF).
  unfold monitors_ok. repeat match goal with |- _ /\ _ => split end.
  - exact M0.
  - unfold d'. cbn [d_map set_map set_mons]. rewrite upd_keys. auto.
  - unfold ids, d'. cbn [d_mons set_map set_mons]. rewrite map_map, (map_ext _ (fun e => mo_id (snd e)) KEEP). auto.
  - intros k0 mo0 I0. apply REF in I0. destruct I0 as (mo1 & I1 & [[_ ->]|[_ ->]]); apply (M3 k0) in I1; auto.
  - intros k0 m0 K0. unfold known, d' in K0. cbn [d_map set_map set_mons] in K0. apply in_upd in K0; auto.
    destruct K0 as [[_ K0]|(-> & m1 & K1 & ->)]; [eapply M4; eauto|]. cbn [m_mons]. rewrite map_map.
    rewrite (map_ext _ (fun e : Z * monitor => fst e)) by (intros x; destruct (i =? fst x); reflexivity). eapply M4; eauto.
  - intros k0 j mo0. rewrite REF. unfold in_memory, known, d'. cbn [d_map set_map set_mons]. split.
    + intros (m0 & K0 & I0). apply in_upd in K0; auto. destruct K0 as [[NK K0]|(-> & m1 & K1 & ->)].
      * assert (IM : in_memory d k0 j mo0) by (exists m0; auto). apply M5 in IM. destruct IM as [I1 E1]. split; auto.
        exists mo0. split; auto. left. split; auto. intros X. apply NK. apply (mon_same d k0 k mo0 mo M I1 I). congruence.
      * cbn [m_mons] in I0. apply in_map_iff in I0. destruct I0 as ([j1 mo1] & E1 & I1). cbn [fst snd] in E1.
        assert (IM : in_memory d k j1 mo1) by (exists m1; auto). apply M5 in IM. destruct IM as [I2 E2].
        destruct (Z.eqb_spec i j1) as [X|X]; inversion E1; subst j mo0.
        -- split; [exists mo1; split; auto; right; split; auto; congruence|cbn; auto].
        -- split; auto. exists mo1. split; auto. left. split; auto. congruence.
    + intros ((mo1 & I1 & [[N1 ->]|[E1 ->]]) & EJ).
      * assert (IM : in_memory d k0 j mo1) by (apply M5; auto). destruct IM as (m1 & K1 & J1).
        destruct (key_dec k0 k) as [-> | NK].
        -- eexists. split; [apply in_upd; auto; right; split; auto; exists m1; split; [exact K1|reflexivity]|]. cbn [m_mons].
           apply in_map_iff. exists (j, mo1). cbn [fst snd]. split; auto. destruct (Z.eqb_spec i j); [congruence|auto].
        -- exists m1. split; auto. apply in_upd; auto.
      * assert (k0 = k /\ mo1 = mo) as [-> ->] by (apply (mon_same d k0 k mo1 mo M I1 I); congruence).
        eexists. split; [apply in_upd; auto; right; split; auto; exists m; split; [exact K|reflexivity]|]. cbn [m_mons].
        apply in_map_iff. exists (i, mo). cbn [fst snd]. rewrite Z.eqb_refl. cbn in EJ. split; [congruence|auto].
Qed.
