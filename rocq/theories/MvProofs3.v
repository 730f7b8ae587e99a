(** The reports of an EVSE over any history. *)
From Coq Require Import String Ascii ZArith QArith Qabs Qround List Bool Lia Lqa Permutation Sorted.
From Verif Require Import MvModel MvEvse MvSpec MvSpec2 MvProofs MvProofs2.
Import ListNotations.
Local Open Scope string_scope.
Local Open Scope list_scope.
Local Open Scope Z_scope.

(** ** The energy register *)
Lemma iequals_spec : forall a b, iequals a b = true <-> map lower (list_ascii_of_string a) = map lower (list_ascii_of_string b).
Proof.
  induction a as [|x a IH]; intros [|y b]; cbn; try (split; congruence). rewrite andb_true_iff, Ascii.eqb_eq, IH. split; [intros [-> ->]; reflexivity|].
  intros E. injection E as E1 E2. auto.
Qed.
Lemma lower_two : forall c u l, lower l = l -> lower c = l -> lower u = l -> u <> l -> nat_of_ascii l = (nat_of_ascii u + 32)%nat ->
  (65 <= nat_of_ascii u <= 90)%nat -> c = l \/ c = u.
Proof.
  intros c u l L C U N E R. unfold lower in C. destruct (Nat.leb 65 (nat_of_ascii c) && Nat.leb (nat_of_ascii c) 90)%bool eqn:B; [|left; exact C].
  right. apply andb_true_iff in B. rewrite !Nat.leb_le in B. assert (X : nat_of_ascii (ascii_of_nat (nat_of_ascii c + 32)) = nat_of_ascii l) by (rewrite C; reflexivity).
  rewrite nat_ascii_embedding in X by lia. assert (Y : nat_of_ascii c = nat_of_ascii u) by lia. rewrite <- (ascii_nat_embedding c), <- (ascii_nat_embedding u), Y. reflexivity.
Qed.
Lemma lower_k : forall c, lower c = "k"%char <-> c = "k"%char \/ c = "K"%char.
Proof. intros c. split; [intros H; apply (lower_two c "K" "k"); try reflexivity; [exact H|discriminate|cbn; lia]|intros [-> | ->]; reflexivity]. Qed.
Lemma lower_w : forall c, lower c = "w"%char <-> c = "w"%char \/ c = "W"%char.
Proof. intros c. split; [intros H; apply (lower_two c "W" "w"); try reflexivity; [exact H|discriminate|cbn; lia]|intros [-> | ->]; reflexivity]. Qed.
Lemma lower_h : forall c, lower c = "h"%char <-> c = "h"%char \/ c = "H"%char.
Proof. intros c. split; [intros H; apply (lower_two c "H" "h"); try reflexivity; [exact H|discriminate|cbn; lia]|intros [-> | ->]; reflexivity]. Qed.
Lemma iequals_kwh : forall t, iequals t "kWh" = true <-> In t kilo.
Proof.
  intros t. rewrite iequals_spec. split.
  - destruct t as [|a [|b [|c [|d t]]]]; cbn [list_ascii_of_string map]; try discriminate. intros E. injection E as A B C.
    change (lower "k") with "k"%char in A. change (lower "W") with "w"%char in B. change (lower "h") with "h"%char in C.
    apply lower_k in A. apply lower_w in B. apply lower_h in C.
    destruct A as [-> | ->], B as [-> | ->], C as [-> | ->]; vm_compute; tauto.
  - intros I. cbn [In kilo] in I. repeat (destruct I as [<-|I]; [reflexivity|]). contradiction.
Qed.
Lemma iequals_wh : forall t, iequals t "Wh" = true <-> In t whole.
Proof.
  intros t. rewrite iequals_spec. split.
  - destruct t as [|b [|c [|d t]]]; cbn [list_ascii_of_string map]; try discriminate. intros E. injection E as B C.
    change (lower "W") with "w"%char in B. change (lower "h") with "h"%char in C. apply lower_w in B. apply lower_h in C.
    destruct B as [-> | ->], C as [-> | ->]; vm_compute; tauto.
  - intros I. cbn [In whole] in I. repeat (destruct I as [<-|I]; [reflexivity|]). contradiction.
Qed.
Lemma mult_scale : forall m v, ((match m with Some x => if x =? 0 then v else v * Qpower 10 x | None => v end) ==
  v * Qpower 10 (match m with Some x => x | None => 0%Z end))%Q.
Proof.
  intros [x|] v; [|cbn; ring]. destruct (x =? 0) eqn:E; [|reflexivity]. apply Z.eqb_eq in E. subst x. cbn. ring.
Qed.
Lemma normalized_scale : forall s q, normalized s = Some q -> exists k, scale (s_unit s) k /\ (q == s_value s * k)%Q.
Proof.
  intros s q. unfold normalized. destruct (s_unit s) as [[t m c]|]; cbn [u_text u_mult].
  2:{ intros E. injection E as <-. exists 1%Q. split; [constructor|ring]. }
  destruct t as [t|].
  2:{ intros E. injection E as <-. eexists. split; [constructor|]. apply mult_scale. }
  destruct (iequals t "kWh") eqn:K.
  { intros E. injection E as <-. apply iequals_kwh in K. eexists. split; [apply ScaleKwh; exact K|]. rewrite mult_scale. ring. }
  destruct (iequals t "Wh") eqn:W; [|discriminate]. intros E. injection E as <-. apply iequals_wh in W. eexists. split; [apply ScaleWh; exact W|]. apply mult_scale.
Qed.
Lemma normalized_none : forall s, normalized s = None -> forall k, ~ scale (s_unit s) k.
Proof.
  intros s. unfold normalized. destruct (s_unit s) as [[t m c]|]; cbn [u_text u_mult]; [|discriminate]. destruct t as [t|]; [|discriminate].
  destruct (iequals t "kWh") eqn:K; [discriminate|]. destruct (iequals t "Wh") eqn:W; [discriminate|]. intros _ k S. inversion S; subst.
  - match goal with H : In t whole |- _ => apply iequals_wh in H; congruence end.
  - match goal with H : In t kilo |- _ => apply iequals_kwh in H; congruence end.
Qed.
Lemma scale_unique : forall u a b, scale u a -> scale u b -> (a == b)%Q.
Proof.
  intros u a b A B. destruct A; inversion B; subst; try reflexivity; exfalso.
  - assert (X : iequals t "kWh" = true) by (apply iequals_kwh; assumption). apply iequals_wh in H. apply iequals_spec in X. apply iequals_spec in H. rewrite X in H. discriminate H.
  - assert (X : iequals t "Wh" = true) by (apply iequals_wh; assumption). apply iequals_kwh in H. apply iequals_spec in X. apply iequals_spec in H. rewrite X in H. discriminate H.
Qed.
Lemma registerb : forall s, oeqb (s_measurand s) (Some Energy_Active_Import_Register) && match s_phase s with None => true | _ => false end = true <-> is_register s.
Proof.
  intros s. rewrite andb_true_iff, oeqb_spec. unfold is_register. destruct (s_phase s); intuition congruence.
Qed.
Lemma find_first : forall (f : sample -> bool) l s, find f l = Some s -> exists a b, l = a ++ s :: b /\ Forall (fun x => f x = false) a /\ f s = true.
Proof.
  intros f. induction l as [|x q IH]; [discriminate|]. cbn [find]. intros s. destruct (f x) eqn:E.
  - intros H. injection H as <-. exists [], q. auto.
  - intros H. destruct (IH s H) as (a&b&->&F&T). exists (x :: a), b. auto.
Qed.
Lemma first_unique : forall (P : sample -> Prop) a s b a' s' b', a ++ s :: b = a' ++ s' :: b' -> Forall (fun x => ~ P x) a -> Forall (fun x => ~ P x) a' -> P s -> P s' -> s = s'.
Proof.
  intros P. induction a as [|x a IH]; intros s b [|x' a'] s' b' E F F' S S'; cbn in E; injection E as E1 E2.
  - exact E1.
  - subst x'. inversion F'; subst. contradiction.
  - subst x. inversion F; subst. contradiction.
  - inversion F; inversion F'; subst. eapply IH; eauto.
Qed.
Lemma register_unique : forall m q q', register m q -> register m q' -> (q == q')%Q.
Proof.
  intros m q q' (a&s&b&k&E&F&S&K&V) (a'&s'&b'&k'&E'&F'&S'&K'&V'). rewrite E in E'.
  rewrite (first_unique is_register _ _ _ _ _ _ E' F F' S S') in *. rewrite V, V', (scale_unique _ _ _ K K'). reflexivity.
Qed.
Lemma active_import_spec : forall m,
  match active_import m with
  | Reading q => register m q
  | NoReading => ~ has_register m
  | BadUnit => has_register m /\ forall q, ~ register m q
  end.
Proof.
  intros m. unfold active_import. destruct (find _ (m_samples m)) as [s|] eqn:E.
  - apply find_first in E. destruct E as (a&b&E&F&T). apply registerb in T.
    assert (F' : Forall (fun x => ~ is_register x) a) by (revert F; apply Forall_impl; intros x X Y; apply registerb in Y; congruence).
    destruct (normalized s) as [q|] eqn:N.
    + destruct (normalized_scale s q N) as (k&K&V). exists a, s, b, k. auto.
    + split; [exists s; rewrite E; split; [apply in_app_iff; right; left; reflexivity|exact T]|].
      intros q (a'&s'&b'&k&E'&F''&S'&K&V). rewrite E in E'. rewrite <- (first_unique is_register _ _ _ _ _ _ E' F' F'' T S') in K.
      exact (normalized_none s N k K).
  - intros (s&I&R). apply registerb in R. pose proof (find_none _ _ E s I) as X. cbv beta in X. congruence.
Qed.
Lemma register_has : forall m q, register m q -> has_register m.
Proof. intros m q (a&s&b&k&E&F&S&_). exists s. rewrite E. split; [apply in_app_iff; right; left; reflexivity|exact S]. Qed.

(** ** Rounding *)
Lemma lround_nearest : forall q, nearest q (lround q).
Proof.
  assert (P : forall q, (0 <= q)%Q -> nearest q (Qfloor (q + (1 # 2)))).
  { intros q H. pose proof (Qfloor_le (q + (1 # 2))) as L. pose proof (Qlt_floor (q + (1 # 2))) as U.
    set (n := Qfloor (q + (1 # 2))) in *. rewrite inject_Z_plus in U. change (inject_Z 1) with 1%Q in U.
    assert (N0 : 0 <= n). { unfold n. change 0 with (Qfloor 0). apply Qfloor_resp_le. lra. }
    assert (N1 : (0 <= inject_Z n)%Q) by (change 0%Q with (inject_Z 0); rewrite <- Zle_Qle; exact N0).
    split.
    - apply Qabs_Qle_condition. lra.
    - rewrite (Qabs_pos q H), (Qabs_pos _ N1). apply Qabs_case; intros; lra. }
  intros q. unfold lround. destruct (Qle_bool 0 q) eqn:E.
  - apply P. apply Qle_bool_iff. exact E.
  - assert (H : (0 <= - q)%Q). { assert (X : ~ (0 <= q)%Q) by (intros X; apply Qle_bool_iff in X; congruence). lra. }
    destruct (P (- q)%Q H) as [A B]. set (n := Qfloor (- q + (1 # 2))) in *.
    assert (X : (q - inject_Z (- n) == - (- q - inject_Z n))%Q) by (rewrite inject_Z_opp; ring).
    split; [rewrite X, Qabs_opp; exact A|]. rewrite X, Qabs_opp. intros Y. specialize (B Y). rewrite Qabs_opp in B. rewrite inject_Z_opp, Qabs_opp. exact B.
Qed.
Lemma nearest_unique : forall q n m, nearest q n -> nearest q m -> n = m.
Proof.
  assert (L : forall q n m, nearest q n -> nearest q m -> n < m -> False).
  { intros q n m [A1 A2] [B1 B2] N. apply Qabs_Qle_condition in A1. apply Qabs_Qle_condition in B1.
    assert (D : (inject_Z n + 1 <= inject_Z m)%Q). { change 1%Q with (inject_Z 1). rewrite <- inject_Z_plus, <- Zle_Qle. lia. }
    assert (E1 : (q - inject_Z n == 1 # 2)%Q) by lra. assert (E2 : (q - inject_Z m == - (1 # 2))%Q) by lra.
    assert (E3 : (inject_Z m == inject_Z n + 1)%Q) by lra.
    rewrite E1 in A2. rewrite E2 in B2. specialize (A2 (Qeq_refl _)). specialize (B2 (Qeq_refl _)).
    assert (Q1 : (q == inject_Z n + (1 # 2))%Q) by lra. rewrite E3 in B2. rewrite Q1 in A2, B2.
    destruct (Z.le_gt_cases 0 n) as [S|S].
    - assert (S' : (0 <= inject_Z n)%Q) by (change 0%Q with (inject_Z 0); rewrite <- Zle_Qle; exact S). rewrite !Qabs_pos in A2 by lra. lra.
    - assert (S' : (inject_Z n <= - (1))%Q) by (change (- (1))%Q with (inject_Z (-1)); rewrite <- Zle_Qle; lia). rewrite !Qabs_neg in B2 by lra. lra. }
  intros q n m A B. destruct (Z.lt_trichotomy n m) as [N|[N|N]]; [elim (L q n m A B N)|exact N|elim (L q m n B A N)].
Qed.
Lemma nearest_eq : forall q q' n, (q == q')%Q -> nearest q n -> nearest q' n.
Proof. intros q q' n E [A B]. split; [rewrite <- E; exact A|]. rewrite <- E. exact B. Qed.
