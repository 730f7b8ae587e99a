(** Parsing what was dumped gives the value back. *)
From Coq Require Import ZArith List Bool String Ascii Lia.
From Verif Require Import StrModel StrSpec StrProofs JsonModel.
Import ListNotations.
Local Open Scope string_scope.
Local Open Scope Z_scope.

(** Induction over JSON values with the hypotheses for the elements of arrays and objects. *)
Definition json_ind' (P : json -> Prop) (Hnull : P JNull) (Hbool : forall b, P (JBool b)) (Hint : forall z, P (JInt z))
  (Hfloat : forall t, P (JFloat t)) (Hstr : forall s, P (JStr s)) (Harr : forall l, Forall P l -> P (JArr l))
  (Hobj : forall l, Forall (fun kv => P (snd kv)) l -> P (JObj l)) : forall j, P j :=
  fix rec (j : json) : P j :=
    match j with
    | JNull => Hnull
    | JBool b => Hbool b
    | JInt z => Hint z
    | JFloat t => Hfloat t
    | JStr s => Hstr s
    | JArr l => Harr l ((fix go l := match l return Forall P l with
                                     | [] => Forall_nil _
                                     | x :: l' => Forall_cons x (rec x) (go l') end) l)
    | JObj l => Hobj l ((fix go l := match l return Forall (fun kv => P (snd kv)) l with
                                     | [] => Forall_nil _
                                     | x :: l' => Forall_cons x (rec (snd x)) (go l') end) l)
    end.

(** Keys in strictly increasing order, as in a std::map. *)
Fixpoint increasing (ks : list string) : Prop :=
  match ks with
  | k :: (k' :: _) as ks' => str_lt k k' = true /\ increasing ks'
  | _ => True
  end.

(** Values nlohmann::json can hold (strings apart): 64-bit integers, number tokens that are not integers, sorted keys. *)
Inductive wf : json -> Prop :=
| wf_null : wf JNull
| wf_bool b : wf (JBool b)
| wf_int z : int64_ok z = true -> wf (JInt z)
| wf_float t : float_token t = true -> int_token t = false -> wf (JFloat t)
| wf_str s : wf (JStr s)
| wf_arr l : Forall wf l -> wf (JArr l)
| wf_obj l : increasing (map fst l) -> Forall (fun kv => wf (snd kv)) l -> wf (JObj l).

(** * Numbers *)

Lemma chr_code n : 0 <= n < 256 -> code (chr n) = n.
Proof. intros. unfold code, chr. rewrite N_ascii_embedding by lia. lia. Qed.

Lemma chr_digit d : 0 <= d < 10 -> isdigit (chr (48 + d)) = true /\ code (chr (48 + d)) = 48 + d.
Proof.
  intros. rewrite chr_code by lia. split; auto. unfold isdigit. rewrite chr_code by lia.
  apply andb_true_iff. rewrite !Z.leb_le. lia.
Qed.

Definition first_not_zero (s : string) : Prop := match s with String c _ => code c <> 48 | EmptyString => True end.

Lemma dec_fuel_ok f : forall n, 0 <= n < 2 ^ Z.of_nat f -> (1 <= f)%nat ->
  let s := dec_fuel f n in
  all_of isdigit s = true /\ digits_value 0 s = n /\ s <> "" /\ (1 <= n -> first_not_zero s) /\
  (n < 10 -> String.length s = 1%nat).
Proof.
  induction f as [|f IH]; intros n B F; [lia|]. cbn [dec_fuel]. cbv zeta.
  destruct (Z.ltb_spec n 10) as [L|L].
  - destruct (chr_digit n ltac:(lia)) as [D C]. cbn [all_of digits_value]. rewrite D, C.
    repeat match goal with |- _ /\ _ => split end; [reflexivity|lia|discriminate| |reflexivity].
    intros. cbn [first_not_zero]. rewrite C. lia.
  - assert (M := Z.mod_pos_bound n 10 ltac:(lia)).
    destruct (chr_digit (n mod 10) ltac:(lia)) as [D C].
    assert (Q : 0 <= n / 10 < 2 ^ Z.of_nat f).
    { rewrite Nat2Z.inj_succ, Z.pow_succ_r in B by lia.
      split; [apply Z.div_pos; lia|]. apply Z.div_lt_upper_bound; lia. }
    assert (F1 : (1 <= f)%nat).
    { destruct f; [|lia]. cbn in B. lia. }
    specialize (IH (n / 10) Q F1). cbv zeta in IH. destruct IH as (A & V & N & Z1 & _).
    assert (1 <= n / 10) by (apply Z.div_le_lower_bound; lia).
    repeat split.
    + rewrite all_of_app, A. cbn [all_of]. rewrite D. reflexivity.
    + rewrite digits_value_app by auto. rewrite V, C. pose proof (Z.div_mod n 10). lia.
    + destruct (dec_fuel f (n / 10)); [congruence|discriminate].
    + intros _. specialize (Z1 ltac:(lia)). destruct (dec_fuel f (n / 10)); [congruence|exact Z1].
    + lia.
Qed.

Lemma dec_ok n : 0 <= n ->
  all_of isdigit (dec n) = true /\ digits_value 0 (dec n) = n /\ dec n <> "" /\ (1 <= n -> first_not_zero (dec n)) /\
  (n < 10 -> String.length (dec n) = 1%nat).
Proof.
  intros P. unfold dec. apply dec_fuel_ok; [|lia]. split; auto.
  destruct (Z.eq_dec n 0) as [-> |]; [reflexivity|].
  rewrite Nat2Z.inj_succ, Z2Nat.id by apply Z.log2_nonneg. apply Z.log2_spec. lia.
Qed.

Lemma dec_int_part n : 0 <= n -> int_part (dec n) = true.
Proof.
  intros P. destruct (dec_ok n P) as (A & V & N & Z1 & O).
  destruct (dec n) as [|c s] eqn:E; [congruence|]. cbn [all_of] in A. apply andb_true_iff in A. destruct A as [D A].
  unfold int_part. destruct s as [|c' s]; [exact D|]. rewrite D, A.
  assert (1 <= n). { destruct (Z.ltb_spec n 10); [|lia]. specialize (O ltac:(lia)). cbn in O. lia. }
  specialize (Z1 ltac:(lia)). cbn in Z1. destruct (Z.eqb_spec (code c) 48); [lia|reflexivity].
Qed.

Lemma isdigit_not_minus c : isdigit c = true -> code c =? 45 = false.
Proof. unfold isdigit. rewrite andb_true_iff, !Z.leb_le, Z.eqb_neq. lia. Qed.

Lemma dump_int_first z : exists c s, dump_int z = String c s /\ (isdigit c = true \/ code c = 45).
Proof.
  unfold dump_int. destruct (z <? 0) eqn:S; [eauto|].
  apply Z.ltb_ge in S. destruct (dec_ok z S) as (A & _ & N & _). destruct (dec z) as [|c s]; [congruence|].
  cbn in A. apply andb_true_iff in A. exists c, s. tauto.
Qed.

Lemma number_of_int z : int64_ok z = true -> number_of (dump_int z) = Some (JInt z).
Proof.
  intros I. unfold number_of, int_token, dump_int. destruct (Z.ltb_spec z 0) as [L|L].
  - cbn [strip_minus]. change (code "-" =? 45) with true. cbv iota. rewrite dec_int_part by lia.
    destruct (dec_ok (- z) ltac:(lia)) as (_ & V & _). rewrite V, Z.opp_involutive, I. reflexivity.
  - destruct (dec_ok z L) as (A & V & N & _). pose proof (dec_int_part z L) as IP.
    destruct (dec z) as [|c s] eqn:E; [congruence|].
    cbn [all_of] in A. apply andb_true_iff in A. destruct A as [D A].
    assert (M := isdigit_not_minus c D). unfold strip_minus. rewrite M, IP, V, I. reflexivity.
Qed.

Lemma number_char_digit c : isdigit c = true -> number_char c = true.
Proof. intros H. unfold number_char. rewrite H. reflexivity. Qed.

Lemma all_of_impl p q s : (forall c, p c = true -> q c = true) -> all_of p s = true -> all_of q s = true.
Proof. intros H. induction s; cbn; auto. rewrite !andb_true_iff. intuition. Qed.

Lemma dump_int_chars z : all_of number_char (dump_int z) = true.
Proof.
  unfold dump_int. destruct (Z.ltb_spec z 0); cbn [all_of]; change (number_char "-") with true; cbn [andb];
    (eapply all_of_impl; [exact number_char_digit|apply dec_ok; lia]).
Qed.

(** What can follow a number. *)
Definition stops (r : string) : Prop := match r with String c _ => number_char c = false | EmptyString => True end.

Lemma span_number_app t r : all_of number_char t = true -> stops r -> span_number (t ++ r) = (t, r).
Proof.
  intros A S. induction t as [|c t IH]; cbn [append].
  - destruct r as [|c r]; [reflexivity|]. cbn in S |- *. rewrite S. reflexivity.
  - cbn [all_of] in A. apply andb_true_iff in A. destruct A as [C A]. cbn [span_number]. rewrite C, IH; auto.
Qed.

(** float tokens consist of number characters *)
Lemma cut_parts p s : let (t, r) := cut p s in
  match r with
  | Some r => exists c, p c = true /\ s = t ++ String c r
  | None => s = t
  end.
Proof.
  induction s as [|c s IH]; cbn; auto. destruct (p c) eqn:E; [exists c; auto|].
  destruct (cut p s) as [t [r|]]; [destruct IH as (x & X & ->); exists x; auto|congruence].
Qed.

Lemma is_e_number c : is_e c = true -> number_char c = true.
Proof. unfold is_e, number_char. intros H. apply orb_true_iff in H. rewrite !orb_true_iff. tauto. Qed.

Lemma is_dot_number c : is_dot c = true -> number_char c = true.
Proof. unfold is_dot, number_char. intros H. rewrite !orb_true_iff. tauto. Qed.

Lemma is_sign_number c : is_sign c = true -> number_char c = true.
Proof. unfold is_sign, number_char. intros H. apply orb_true_iff in H. rewrite !orb_true_iff. tauto. Qed.

Lemma digits_number s : all_of isdigit s = true -> all_of number_char s = true.
Proof. apply all_of_impl, number_char_digit. Qed.

Lemma int_part_digits s : int_part s = true -> all_of isdigit s = true /\ s <> "".
Proof.
  unfold int_part. destruct s as [|c [|c' s]]; [discriminate| |].
  - intros H. cbn. rewrite H. split; auto; discriminate.
  - rewrite !andb_true_iff. intros [[A _] B]. cbn [all_of] in *. rewrite A, B. split; auto; discriminate.
Qed.

Lemma digits1_digits s : digits1 s = true -> all_of isdigit s = true.
Proof. unfold digits1. destruct s; [discriminate|auto]. Qed.

Lemma skip_sign_number s : all_of number_char (skip_sign s) = true -> all_of number_char s = true.
Proof.
  unfold skip_sign. destruct s as [|c s]; auto. destruct (is_sign c) eqn:E; auto.
  intros H. cbn [all_of]. rewrite (is_sign_number c E), H. reflexivity.
Qed.

Lemma float_token_chars t : float_token t = true ->
  all_of number_char t = true /\ exists c s, t = String c s /\ (isdigit c = true \/ code c = 45).
Proof.
  unfold float_token. pose proof (cut_parts is_e (strip_minus t)) as P1.
  destruct (cut is_e (strip_minus t)) as [mant ex].
  pose proof (cut_parts is_dot mant) as P2. destruct (cut is_dot mant) as [i f].
  rewrite !andb_true_iff. intros [[[I F] X] _]. apply int_part_digits in I. destruct I as [I NI].
  assert (M : all_of number_char mant = true).
  { destruct f as [f|].
    - destruct P2 as (c & C & ->). rewrite all_of_app. cbn [all_of].
      rewrite (digits_number i I), (is_dot_number c C), (digits_number f (digits1_digits f F)). reflexivity.
    - subst. apply digits_number, I. }
  assert (S : all_of number_char (strip_minus t) = true).
  { destruct ex as [e|].
    - destruct P1 as (c & C & ->). rewrite all_of_app, M. cbn [all_of]. rewrite (is_e_number c C).
      rewrite (skip_sign_number e (digits_number _ (digits1_digits _ X))). reflexivity.
    - rewrite P1. exact M. }
  assert (ST : exists c s, strip_minus t = String c s /\ isdigit c = true).
  { destruct i as [|c i]; [congruence|]. cbn [all_of] in I. apply andb_true_iff in I. destruct I as [I _].
    assert (exists s, mant = String c s) as (s & Em).
    { destruct f as [f|]; [destruct P2 as (? & _ & ->)|subst]; cbn; eauto. }
    subst mant. destruct ex as [e|]; [destruct P1 as (? & _ & ->)|rewrite P1]; cbn; eauto. }
  unfold strip_minus in S, ST. destruct t as [|c t]; [destruct ST as (? & ? & ? & _); discriminate|].
  destruct (code c =? 45) eqn:E.
  - apply Z.eqb_eq in E. split; [|eauto]. cbn [all_of]. rewrite S.
    assert (number_char c = true) as -> by (unfold number_char; rewrite E; rewrite !orb_true_iff; cbn; tauto). reflexivity.
  - split; auto. destruct ST as (c' & s & [= <- <-] & D). eauto.
Qed.

(** * Strings *)

Lemma parse_escaped_char c r :
  parse_str (escape_char c ++ r) = match parse_str r with Some (t, r') => Some (String c t, r') | None => None end.
Proof.
  assert (K : forall c, code c =? 34 = true \/ code c =? 92 = true \/ code c =? 8 = true \/ code c =? 9 = true \/ code c =? 10 = true
            \/ code c =? 12 = true \/ code c =? 13 = true \/ (code c <? 32 = true) \/
            (code c =? 34 = false /\ code c =? 92 = false /\ code c =? 8 = false /\ code c =? 9 = false /\ code c =? 10 = false
             /\ code c =? 12 = false /\ code c =? 13 = false /\ code c <? 32 = false)).
  { intros x. destruct (code x =? 34), (code x =? 92), (code x =? 8), (code x =? 9), (code x =? 10), (code x =? 12),
      (code x =? 13), (code x <? 32); tauto. }
  destruct (K c) as [E|[E|[E|[E|[E|[E|[E|[E|E]]]]]]]].
  1-7: apply code_is in E; subst c; reflexivity.
  - assert (R := code_range c). apply Z.ltb_lt in E.
    rewrite <- (ascii_nat_embedding c) in *. rewrite code_nat in *. rewrite nat_ascii_embedding in * by apply nat_ascii_bounded.
    set (k := nat_of_ascii c) in *. clearbody k. assert (k < 32)%nat by lia. clear -H.
    do 32 (destruct k as [|k]; [reflexivity|]). lia.
  - destruct E as (E1 & E2 & E3 & E4 & E5 & E6 & E7 & E8). unfold escape_char.
    rewrite E1, E2, E3, E4, E5, E6, E7, E8. cbn [append parse_str]. rewrite E1, E2, E8. reflexivity.
Qed.

Lemma parse_escaped s r : parse_str (escape s ++ String (chr 34) r) = Some (s, r).
Proof.
  induction s as [|c s IH]; [reflexivity|]. cbn [escape]. rewrite app_assoc_s, parse_escaped_char, IH. reflexivity.
Qed.

Lemma quote_app s r : dump_str s ++ r = String (chr 34) (escape s ++ String (chr 34) r).
Proof. unfold dump_str, quote. rewrite !app_assoc_s. reflexivity. Qed.

(** * First characters *)

Definition plain_first (s : string) : Prop :=
  exists c t, s = String c t /\ is_ws c = false /\ code c <> 93 /\ code c <> 125 /\ code c <> 44.

Lemma number_first c : isdigit c = true \/ code c = 45 ->
  is_ws c = false /\ code c <> 93 /\ code c <> 125 /\ code c <> 44 /\ code c <> 110 /\ code c <> 116 /\ code c <> 102 /\
  code c <> 34 /\ code c <> 91 /\ code c <> 123.
Proof.
  intros H. assert (code c = 45 \/ 48 <= code c <= 57).
  { destruct H as [H|H]; auto. unfold isdigit in H. apply andb_true_iff in H. rewrite !Z.leb_le in H. lia. }
  unfold is_ws. repeat match goal with |- _ /\ _ => split end; lia.
Qed.

Lemma dump_first j : wf j -> plain_first (dump j).
Proof.
  unfold plain_first. intros W. destruct W; cbn [dump].
  - do 2 eexists. split; [reflexivity|]. cbv; intuition discriminate.
  - destruct b; (do 2 eexists; split; [reflexivity|]; cbv; intuition discriminate).
  - destruct (dump_int_first z) as (c & s & E & D). exists c, s. apply number_first in D. tauto.
  - destruct (float_token_chars t H) as (_ & c & s & E & D). exists c, s. apply number_first in D. tauto.
  - do 2 eexists. split; [reflexivity|]. cbv; intuition discriminate.
  - do 2 eexists. split; [reflexivity|]. cbv; intuition discriminate.
  - do 2 eexists. split; [reflexivity|]. cbv; intuition discriminate.
Qed.

Lemma plain_app s r : plain_first s -> plain_first (s ++ r).
Proof. intros (c & t & -> & H). exists c, (t ++ r). auto. Qed.

Lemma skip_plain s : plain_first s -> skip_ws s = s.
Proof. intros (c & t & -> & H & _). cbn. rewrite H. reflexivity. Qed.

Lemma eat_other a s : plain_first s -> (a = "]"%char \/ a = "}"%char \/ a = ","%char) -> eat_word (String a "") s = None.
Proof.
  intros (c & t & -> & _ & H) A. cbn [eat_word]. destruct (Ascii.eqb_spec a c); auto. subst c.
  exfalso. destruct A as [-> | [-> | ->]]; cbv in H; intuition congruence.
Qed.

(** * Objects *)

Lemma str_lt_neq a b : str_lt a b = true -> String.eqb b a = false /\ str_lt b a = false.
Proof.
  intros H. split.
  - apply String.eqb_neq. intros ->. rewrite str_lt_irrefl in H. discriminate.
  - destruct (str_lt b a) eqn:E; auto. pose proof (str_lt_trans _ _ _ H E) as T. rewrite str_lt_irrefl in T. discriminate.
Qed.

Lemma obj_set_last k v l : Forall (fun kv => str_lt (fst kv) k = true) l -> obj_set k v l = (l ++ [(k, v)])%list.
Proof.
  induction 1 as [|[k' v'] l H F IH]; cbn; auto. cbn in H. apply str_lt_neq in H. destruct H as [-> ->]. rewrite IH. reflexivity.
Qed.

Lemma increasing_tail k ks : increasing (k :: ks) -> increasing ks /\ Forall (fun k' => str_lt k k' = true) ks.
Proof.
  revert k. induction ks as [|k' ks IH]; intros k H; [split; auto; exact I|].
  cbn [increasing] in H. destruct H as [L H]. split; auto. constructor; auto.
  destruct (IH k' H) as [_ F]. eapply Forall_impl; [|exact F]. intros a Ha. eapply str_lt_trans; eauto.
Qed.

Lemma increasing_snoc ks k : increasing ks -> Forall (fun k' => str_lt k' k = true) ks -> increasing (ks ++ [k]).
Proof.
  induction ks as [|a ks IH]; intros H F; [exact I|]. inversion F; subst.
  destruct (increasing_tail a ks H) as [Ht _]. specialize (IH Ht ltac:(auto)).
  destruct ks as [|b ks]; cbn; auto. cbn [increasing] in H. destruct H as [L _]. split; auto.
Qed.

(** * Round trip *)

Fixpoint need (j : json) : nat :=
  match j with
  | JArr l => S (list_sum (map (fun x => S (need x)) l))
  | JObj l => S (list_sum (map (fun kv => S (need (snd kv))) l))
  | _ => 1
  end.

Definition good (j : json) : Prop :=
  forall f r, (need j <= f)%nat -> stops r -> parse_value f (dump j ++ r) = Some (j, r).

Ltac code_cases := repeat match goal with
  | |- context [code ?c =? ?n] => replace (code c =? n) with false by (symmetry; apply Z.eqb_neq; lia) end.

Lemma good_number t j r f : (exists c s, t = String c s /\ (isdigit c = true \/ code c = 45)) ->
  all_of number_char t = true -> number_of t = Some j -> stops r -> (1 <= f)%nat ->
  parse_value f (t ++ r) = Some (j, r).
Proof.
  intros (c & s & E & D) A N S F. destruct f as [|f]; [lia|]. cbn [parse_value].
  pose proof (number_first c D) as (W & N1 & N2 & N3 & N4 & N5 & N6 & N7 & N8 & N9).
  assert (K : skip_ws (t ++ r) = t ++ r) by (subst t; cbn; rewrite W; reflexivity).
  rewrite K. assert (SP := span_number_app t r A S). subst t. cbn [append] in *. code_cases.
  rewrite SP, N. reflexivity.
Qed.

Lemma skip_stop a r : is_ws a = false -> skip_ws (String a r) = String a r.
Proof. intros H. cbn. rewrite H. reflexivity. Qed.

Lemma elems_ok l : Forall wf l -> Forall good l -> l <> [] ->
  forall f r, (list_sum (map (fun x => S (need x)) l) <= f)%nat ->
  parse_elems f (String.concat "," (map dump l) ++ "]" ++ r) = Some (l, r).
Proof.
  intros W G. induction l as [|x l IH]; [congruence|]. intros _ f r F.
  inversion W as [|? ? Wx Wl]; subst. inversion G as [|? ? Gx Gl]; subst.
  cbn [map list_sum fold_right] in F. destruct f as [|f]; [lia|].
  destruct l as [|y l].
  - cbn [map String.concat]. cbn [parse_elems]. rewrite Gx; [|lia|reflexivity].
    cbn [append]. rewrite skip_stop by reflexivity. reflexivity.
  - change (String.concat "," (map dump (x :: y :: l))) with (dump x ++ "," ++ String.concat "," (map dump (y :: l))).
    rewrite !app_assoc_s. cbn [parse_elems]. rewrite Gx; [|lia|reflexivity].
    cbn [append]. rewrite skip_stop by reflexivity.
    match goal with |- context [eat_word "," (String "," ?s)] => change (eat_word "," (String "," s)) with (Some s) end.
    cbv iota beta. change (String "]" r) with ("]" ++ r).
    rewrite IH; auto; [discriminate|].
    unfold list_sum in *. cbn [map fold_right] in *. lia.
Qed.

Lemma members_ok l : increasing (map fst l) -> Forall (fun kv => wf (snd kv)) l -> Forall (fun kv => good (snd kv)) l -> l <> [] ->
  forall f r acc, (list_sum (map (fun kv => S (need (snd kv))) l) <= f)%nat ->
  (forall a b, In a acc -> In b l -> str_lt (fst a) (fst b) = true) ->
  parse_members f (String.concat "," (map (fun kv => dump_str (fst kv) ++ ":" ++ dump (snd kv)) l) ++ "}" ++ r) acc
  = Some ((acc ++ l)%list, r).
Proof.
  intros Inc W G. induction l as [|[k x] l IH]; [congruence|]. intros _ f r acc F A.
  inversion W as [|? ? Wx Wl]; subst. inversion G as [|? ? Gx Gl]; subst. cbn [snd fst] in *.
  cbn [map list_sum fold_right snd] in F. destruct f as [|f]; [lia|].
  assert (Sk : obj_set k x acc = (acc ++ [(k, x)])%list).
  { apply obj_set_last. apply Forall_forall. intros a Ia. apply (A a (k, x)); auto. left. reflexivity. }
  cbn [map fst] in Inc. apply increasing_tail in Inc. destruct Inc as [Inc Lt].
  assert (A' : forall a b, In a (acc ++ [(k, x)])%list -> In b l -> str_lt (fst a) (fst b) = true).
  { intros a b Ia Ib. apply in_app_iff in Ia. destruct Ia as [Ia|[<- |[]]].
    - apply A; auto. right. exact Ib.
    - rewrite Forall_forall in Lt. apply Lt. apply in_map. exact Ib. }
  destruct l as [|y l].
  - cbn [map String.concat fst snd]. rewrite !app_assoc_s. rewrite quote_app. cbn [parse_members].
    rewrite skip_stop by reflexivity.
    match goal with |- context [eat_word quote (String (chr 34) ?s)] => change (eat_word quote (String (chr 34) s)) with (Some s) end.
    cbv iota beta. rewrite parse_escaped. cbn [append]. rewrite skip_stop by reflexivity.
    match goal with |- context [eat_word ":" (String ":" ?s)] => change (eat_word ":" (String ":" s)) with (Some s) end.
    cbv iota beta. rewrite Gx; [|lia|reflexivity]. rewrite skip_stop by reflexivity.
    match goal with |- context [eat_word "," (String "}" ?s)] => change (eat_word "," (String "}" s)) with (@None string) end.
    match goal with |- context [eat_word "}" (String "}" ?s)] => change (eat_word "}" (String "}" s)) with (Some s) end.
    cbv iota beta zeta. rewrite Sk. reflexivity.
  - set (g := fun kv => dump_str (fst kv) ++ ":" ++ dump (snd kv)) in *.
    change (String.concat "," (map g ((k, x) :: y :: l)))
      with (g (k, x) ++ "," ++ String.concat "," (map g (y :: l))).
    change (g (k, x)) with (dump_str k ++ ":" ++ dump x).
    rewrite !app_assoc_s. rewrite quote_app. cbn [parse_members].
    rewrite skip_stop by reflexivity.
    match goal with |- context [eat_word quote (String (chr 34) ?s)] => change (eat_word quote (String (chr 34) s)) with (Some s) end.
    cbv iota beta. rewrite parse_escaped. cbn [append]. rewrite skip_stop by reflexivity.
    match goal with |- context [eat_word ":" (String ":" ?s)] => change (eat_word ":" (String ":" s)) with (Some s) end.
    cbv iota beta. rewrite Gx; [|lia|reflexivity]. rewrite skip_stop by reflexivity.
    match goal with |- context [eat_word "," (String "," ?s)] => change (eat_word "," (String "," s)) with (Some s) end.
    cbv iota beta zeta. rewrite Sk. change (String "}" r) with ("}" ++ r).
    rewrite (IH Inc Wl Gl ltac:(discriminate)); [|unfold list_sum in *; cbn [map fold_right] in *; lia|exact A'].
    rewrite <- app_assoc. reflexivity.
Qed.

Lemma plain_concat_first x l : plain_first x -> plain_first (String.concat "," (x :: l)).
Proof. intros H. destruct l; [exact H|]. cbn. apply plain_app. exact H. Qed.

Lemma roundtrip_good j : wf j -> good j.
Proof.
  induction j as [|b|z|t|s|l IH|l IH] using json_ind'; intros W; unfold good; intros f r F S.
  - destruct f; [cbn in F; lia|]. reflexivity.
  - destruct f; [cbn in F; lia|]. destruct b; reflexivity.
  - inversion W; subst. apply good_number; auto; [apply dump_int_first|apply dump_int_chars|apply number_of_int; auto].
  - inversion W as [| | |? FT NI| | |]; subst. destruct (float_token_chars t FT) as [A B].
    cbn [dump]. apply good_number; auto. unfold number_of. rewrite NI, FT. reflexivity.
  - destruct f; [cbn in F; lia|]. cbn [dump]. rewrite quote_app. cbn [parse_value].
    rewrite skip_stop by reflexivity. change (code (chr 34)) with 34. cbn [Z.eqb Pos.eqb]. rewrite parse_escaped. reflexivity.
  - inversion W as [| | | | |? Wl|]; subst. cbn [need] in F. destruct f as [|f]; [lia|].
    assert (Gl : Forall good l).
    { clear -IH Wl. induction IH; constructor; inversion Wl; subst; auto. }
    cbn [dump]. rewrite !app_assoc_s. cbn [append]. cbn [parse_value]. rewrite skip_stop by reflexivity.
    change (code "[") with 91. cbn [Z.eqb Pos.eqb].
    destruct l as [|x l]; [reflexivity|].
    assert (PF : plain_first (String.concat "," (map dump (x :: l)) ++ "]" ++ r)).
    { apply plain_app. cbn [map]. apply plain_concat_first, dump_first. inversion Wl; auto. }
    change (String "]" r) with ("]" ++ r). rewrite (skip_plain _ PF), (eat_other "]"%char _ PF) by auto.
    rewrite elems_ok; auto; [discriminate|lia].
  - inversion W as [| | | | | |? Inc Wl]; subst. cbn [need] in F. destruct f as [|f]; [lia|].
    assert (Gl : Forall (fun kv => good (snd kv)) l).
    { clear -IH Wl. induction IH; constructor; inversion Wl; subst; auto. }
    cbn [dump]. set (g := fun kv => dump_str (fst kv) ++ ":" ++ dump (snd kv)) in *.
    assert (M : l <> [] -> parse_members f (String.concat "," (map g l) ++ "}" ++ r) [] = Some (l, r)).
    { intros NE. apply (members_ok l Inc Wl Gl NE f r []); [lia|intros a b []]. }
    assert (PF : l <> [] -> plain_first (String.concat "," (map g l) ++ "}" ++ r)).
    { intros NE. apply plain_app. destruct l as [|[k x] l]; [congruence|]. cbn [map]. apply plain_concat_first.
      unfold g. cbn [fst]. rewrite quote_app. do 2 eexists. split; [reflexivity|]. cbv; intuition discriminate. }
    clearbody g. rewrite !app_assoc_s. cbn [append] in *. cbn [parse_value]. rewrite skip_stop by reflexivity.
    change (code "{") with 123. cbn [Z.eqb Pos.eqb].
    destruct l as [|kv l]; [reflexivity|]. specialize (M ltac:(discriminate)). specialize (PF ltac:(discriminate)).
    rewrite (skip_plain _ PF), (eat_other "}"%char _ PF) by auto. rewrite M. reflexivity.
Qed.

(** the fuel of [parse] suffices *)
Lemma concat_length l : (String.length (String.concat "," l) + 1 >= list_sum (map (fun s => S (String.length s)) l))%nat.
Proof.
  induction l as [|x l IH]; cbn; [lia|]. destruct l as [|y l].
  - cbn. lia.
  - rewrite !app_length_s. cbn [String.length]. unfold list_sum in *. cbn [map fold_right] in *.
    change (match l with [] => y | _ :: _ => y ++ "," ++ String.concat "," l end) with (String.concat "," (y :: l)).
    lia.
Qed.

Lemma need_length j : (need j <= S (2 * String.length (dump j)))%nat.
Proof.
  induction j as [|b|z|t|s|l IH|l IH] using json_ind'; try (cbn; lia).
  - cbn [need dump]. rewrite !app_length_s. cbn [String.length].
    pose proof (concat_length (map dump l)) as C.
    assert (E : (list_sum (map (fun x => S (need x)) l) <= 2 * list_sum (map (fun s => S (String.length s)) (map dump l)))%nat).
    { clear C. induction IH; cbn; [lia|]. unfold list_sum in *. lia. }
    lia.
  - cbn [need dump]. rewrite !app_length_s. cbn [String.length].
    set (g := fun kv => dump_str (fst kv) ++ ":" ++ dump (snd kv)) in *.
    pose proof (concat_length (map g l)) as C.
    assert (E : (list_sum (map (fun kv => S (need (snd kv))) l) <= 2 * list_sum (map (fun s => S (String.length s)) (map g l)))%nat).
    { clear C. induction IH as [|[k x] l H IH IHl]; [cbn; lia|]. unfold list_sum in *. cbn [map fold_right snd] in *.
      assert (L : String.length (g (k, x)) = (String.length (dump_str k) + S (String.length (dump x)))%nat)
        by (unfold g; rewrite !app_length_s; reflexivity).
      rewrite L. lia. }
    lia.
Qed.

Lemma app_nil_s s : s ++ "" = s.
Proof. induction s; cbn; congruence. Qed.

Theorem parse_dump j : wf j -> parse (dump j) = Some j.
Proof.
  intros W. unfold parse. pose proof (roundtrip_good j W (S (2 * String.length (dump j))) "" (need_length j) I) as H.
  rewrite app_nil_s in H. rewrite H. reflexivity.
Qed.
