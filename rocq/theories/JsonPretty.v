(** Indented JSON text: what json::parse reads from what json::dump(2) wrote, and the form of everything that was parsed. *)
From Coq Require Import ZArith List Bool String Ascii Lia.
From Verif Require Import StrModel StrSpec StrProofs JsonModel JsonProofs CfgSchemaLang CfgModel.
Import ListNotations.
Local Open Scope list_scope.
Local Open Scope string_scope.
Local Open Scope Z_scope.

(** Values json::parse gives. *)
Inductive readable : json -> Prop :=
| readable_null : readable JNull
| readable_bool b : readable (JBool b)
| readable_int z : int64_ok z = true -> readable (JInt z)
| readable_float t : number_of t = Some (JFloat t) -> readable (JFloat t)
| readable_str s : readable (JStr s)
| readable_arr l : Forall readable l -> readable (JArr l)
| readable_obj l : increasing (map fst l) -> Forall (fun kv => readable (snd kv)) l -> readable (JObj l).

(** ** What was parsed *)

Lemma set_increasing k v l : increasing (map fst l) -> increasing (map fst (obj_set k v l)) /\
  forall k0, str_lt k0 k = true -> Forall (fun k' => str_lt k0 k' = true) (map fst l) -> Forall (fun k' => str_lt k0 k' = true) (map fst (obj_set k v l)).
Proof.
  induction l as [|[k' v'] l IH]; intros H.
  - cbn. split; [exact I|]. intros k0 L _. auto.
  - cbn [obj_set]. destruct (String.eqb_spec k k') as [->|Ne].
    + split; [exact H|]. intros k0 L F. exact F.
    + destruct (str_lt k k') eqn:L.
      * split; [cbn [map fst increasing]; split; [exact L|exact H]|]. intros k0 L0 F. cbn [map fst]. constructor; assumption.
      * assert (L' : str_lt k' k = true) by (destruct (str_lt_total k k') as [X|[X|X]]; congruence).
        cbn [map fst] in H. destruct (increasing_tail _ _ H) as [Ht F]. destruct (IH Ht) as [I1 I2].
        split.
        -- cbn [map fst]. specialize (I2 k' L' F). destruct (map fst (obj_set k v l)) as [|a r]; [exact I|].
           cbn [increasing]. inversion I2; subst. split; assumption.
        -- intros k0 L0 F0. cbn [map fst] in *. inversion F0; subst. constructor; auto.
Qed.

Lemma set_readable k v l : readable v -> Forall (fun kv => readable (snd kv)) l -> Forall (fun kv : string * json => readable (snd kv)) (obj_set k v l).
Proof.
  intros V. induction l as [|[k' v'] l IH]; cbn [obj_set]; intros F; [auto|]. inversion F; subst.
  destruct (String.eqb k k'); [constructor; auto|]. destruct (str_lt k k'); constructor; auto.
Qed.

Lemma number_readable t j : number_of t = Some j -> readable j.
Proof.
  intros H. pose proof H as H'. unfold number_of in H. destruct (int_token t).
  - match type of H with Some (if int64_ok ?z then _ else _) = _ => destruct (int64_ok z) eqn:O end; inversion H; subst; constructor; assumption.
  - destruct (float_token t); inversion H; subst. constructor. exact H'.
Qed.

Lemma parsed_readable f :
  (forall s j r, parse_value f s = Some (j, r) -> readable j) /\
  (forall s l r, parse_elems f s = Some (l, r) -> Forall readable l) /\
  (forall s acc l r, parse_members f s acc = Some (l, r) -> increasing (map fst acc) -> Forall (fun kv => readable (snd kv)) acc ->
     increasing (map fst l) /\ Forall (fun kv => readable (snd kv)) l).
Proof.
  induction f as [|f (IV & IE & IM)]; [repeat split; discriminate|]. split; [|split].
  - intros s j r H. cbn [parse_value] in H. destruct (skip_ws s) as [|c s1]; [discriminate H|].
    destruct (code c =? 110); [destruct (eat_word _ _); inversion H; constructor|].
    destruct (code c =? 116); [destruct (eat_word _ _); inversion H; constructor|].
    destruct (code c =? 102); [destruct (eat_word _ _); inversion H; constructor|].
    destruct (code c =? 34); [destruct (parse_str s1) as [[t r']|]; inversion H; constructor|].
    destruct (code c =? 91).
    { destruct (eat_word _ _); [inversion H; constructor; constructor|].
      destruct (parse_elems f s1) as [[l r']|] eqn:E; inversion H; subst. constructor. eauto. }
    destruct (code c =? 123).
    { destruct (eat_word _ _); [inversion H; constructor; [exact I|constructor]|].
      destruct (parse_members f s1 []) as [[l r']|] eqn:E; inversion H; subst.
      destruct (IM _ _ _ _ E) as [A B]; [exact I|constructor|]. constructor; assumption. }
    destruct (span_number (String c s1)) as [t r']. destruct (number_of t) eqn:N; inversion H; subst. eapply number_readable. exact N.
  - intros s l r H. cbn [parse_elems] in H. destruct (parse_value f s) as [[j r']|] eqn:V; [|discriminate H].
    destruct (eat_word "," (skip_ws r')) as [r''|].
    + destruct (parse_elems f r'') as [[l' r3]|] eqn:E; inversion H; subst. constructor; eauto.
    + destruct (eat_word "]" (skip_ws r')); inversion H; subst. constructor; eauto.
  - intros s acc l r H Inc F. cbn [parse_members] in H. destruct (eat_word quote (skip_ws s)) as [s1|]; [|discriminate H].
    destruct (parse_str s1) as [[k s2]|]; [|discriminate H]. destruct (eat_word ":" (skip_ws s2)) as [s3|]; [|discriminate H].
    destruct (parse_value f s3) as [[j r']|] eqn:V; [|discriminate H]. cbv zeta in H.
    pose proof (proj1 (set_increasing k j acc Inc)) as Inc'. pose proof (set_readable k j acc (IV _ _ _ V) F) as F'.
    destruct (eat_word "," (skip_ws r')) as [r''|]; [exact (IM _ _ _ _ H Inc' F')|].
    destruct (eat_word "}" (skip_ws r')); inversion H; subst. auto.
Qed.

Lemma parse_readable s j : parse s = Some j -> readable j.
Proof.
  unfold parse. destruct (parse_value _ s) as [[j' r]|] eqn:E; [|discriminate]. destruct (skip_ws r); [|discriminate].
  intros H. inversion H; subst. exact (proj1 (parsed_readable _) _ _ _ E).
Qed.

(** ** What is read from indented text *)

Lemma int_token_chars t : int_token t = true -> all_of number_char t = true /\ exists c s, t = String c s /\ (isdigit c = true \/ code c = 45).
Proof.
  unfold int_token, strip_minus. destruct t as [|c t]; [discriminate|]. intros H.
  destruct (code c =? 45) eqn:M.
  - apply Z.eqb_eq in M. apply int_part_digits in H. destruct H as [H _]. split; [|exists c, t; auto].
    cbn [all_of]. rewrite (digits_number _ H). unfold number_char. rewrite M, andb_true_r, !orb_true_iff. cbn. auto 10.
  - apply int_part_digits in H. destruct H as [H _]. split; [exact (digits_number _ H)|]. exists c, t. split; [reflexivity|left].
    cbn [all_of] in H. apply andb_true_iff in H. tauto.
Qed.

Lemma float_chars t : number_of t = Some (JFloat t) -> all_of number_char t = true /\ exists c s, t = String c s /\ (isdigit c = true \/ code c = 45).
Proof.
  unfold number_of. destruct (int_token t) eqn:E; [intros _; exact (int_token_chars _ E)|].
  destruct (float_token t) eqn:F; [intros _; exact (float_token_chars _ F)|discriminate].
Qed.

Lemma skip_indent n s : skip_ws (indent n ++ s) = skip_ws s.
Proof. induction n as [|n IH]; [reflexivity|]. exact IH. Qed.
Lemma skip_newline s : skip_ws (newline ++ s) = skip_ws s.
Proof. reflexivity. Qed.

Lemma parse_skips f s : parse_value f (skip_ws s) = parse_value f s.
Proof.
  destruct f as [|f]; [reflexivity|]. cbn [parse_value].
  assert (E : skip_ws (skip_ws s) = skip_ws s).
  { induction s as [|c s IH]; [reflexivity|]. cbn. destruct (is_ws c) eqn:W; [exact IH|]. cbn. rewrite W. reflexivity. }
  rewrite E. reflexivity.
Qed.

Lemma pretty_first n j : readable j -> plain_first (pretty n j).
Proof.
  unfold plain_first. intros W. destruct W; cbn [pretty dump].
  - do 2 eexists. split; [reflexivity|]. cbv; intuition discriminate.
  - destruct b; (do 2 eexists; split; [reflexivity|]; cbv; intuition discriminate).
  - destruct (dump_int_first z) as (c & s & E & D). exists c, s. apply number_first in D. tauto.
  - destruct (float_chars t H) as (_ & c & s & E & D). exists c, s. apply number_first in D. tauto.
  - do 2 eexists. split; [reflexivity|]. cbv; intuition discriminate.
  - destruct l; (do 2 eexists; split; [reflexivity|]; cbv; intuition discriminate).
  - destruct l; (do 2 eexists; split; [reflexivity|]; cbv; intuition discriminate).
Qed.

Definition reads (j : json) : Prop :=
  forall n f r, (JsonProofs.need j <= f)%nat -> stops r -> parse_value f (pretty n j ++ r) = Some (j, r).

Lemma reads_indented j : reads j -> forall m n f r, (JsonProofs.need j <= f)%nat -> stops r -> parse_value f (indent m ++ pretty n j ++ r) = Some (j, r).
Proof. intros G m n f r F S. rewrite <- parse_skips, skip_indent, parse_skips. apply G; assumption. Qed.

Definition comma_line : string := "," ++ newline.

Lemma skip_end n c r : is_ws c = false -> skip_ws (newline ++ indent n ++ String c r) = String c r.
Proof. intros W. rewrite skip_newline, skip_indent. apply skip_stop. exact W. Qed.

Lemma stops_newline s : stops (newline ++ s).
Proof. reflexivity. Qed.

Lemma elems_read n l : Forall reads l -> l <> [] ->
  forall f pre r, (list_sum (map (fun x => S (JsonProofs.need x)) l) <= f)%nat -> (forall s, skip_ws (pre ++ s) = skip_ws s) ->
  parse_elems f (pre ++ String.concat comma_line (map (fun v => indent (n + 2) ++ pretty (n + 2) v) l) ++ newline ++ indent n ++ "]" ++ r) = Some (l, r).
Proof.
  intros G. induction l as [|x l IH]; [congruence|]. intros _ f pre r F Pre.
  inversion G as [|? ? Gx Gl]; subst.
  cbn [map list_sum fold_right] in F. destruct f as [|f]; [lia|].
  destruct l as [|y l].
  - cbn [map String.concat]. cbn [parse_elems]. rewrite <- parse_skips, Pre, parse_skips. rewrite app_assoc_s.
    rewrite (reads_indented x Gx); [|lia|apply stops_newline].
    cbn [append]. rewrite skip_end by reflexivity. reflexivity.
  - set (g := fun v => indent (n + 2) ++ pretty (n + 2) v) in *.
    change (String.concat comma_line (map g (x :: y :: l))) with (g x ++ comma_line ++ String.concat comma_line (map g (y :: l))).
    change (g x) with (indent (n + 2) ++ pretty (n + 2) x). cbn [parse_elems].
    rewrite <- parse_skips, Pre, parse_skips. rewrite !app_assoc_s.
    rewrite (reads_indented x Gx); [|lia|reflexivity].
    unfold comma_line at 1. rewrite !app_assoc_s. cbn [append]. rewrite skip_stop by reflexivity.
    match goal with |- context [eat_word "," (String "," ?s)] => change (eat_word "," (String "," s)) with (Some s) end.
    cbv iota beta. change (String "]" r) with ("]" ++ r).
    match goal with |- context [parse_elems f ?s] => change s with (newline ++ String.concat comma_line (map g (y :: l)) ++ newline ++ indent n ++ "]" ++ r) end.
    rewrite IH; auto; [discriminate|].
    unfold list_sum in *. cbn [map fold_right] in *. lia.
Qed.

Lemma members_read n l : increasing (map fst l) -> Forall (fun kv => reads (snd kv)) l -> l <> [] ->
  forall f pre r acc, (list_sum (map (fun kv => S (JsonProofs.need (snd kv))) l) <= f)%nat ->
  (forall s, skip_ws (pre ++ s) = skip_ws s) ->
  (forall a b, In a acc -> In b l -> str_lt (fst a) (fst b) = true) ->
  parse_members f (pre ++ String.concat comma_line (map (fun e => indent (n + 2) ++ dump_str (fst e) ++ ": " ++ pretty (n + 2) (snd e)) l) ++ newline ++ indent n ++ "}" ++ r) acc
  = Some ((acc ++ l)%list, r).
Proof.
  intros Inc G. induction l as [|[k x] l IH]; [congruence|]. intros _ f pre r acc F Pre A.
  inversion G as [|? ? Gx Gl]; subst. cbn [snd fst] in *.
  cbn [map list_sum fold_right snd] in F. destruct f as [|f]; [lia|].
  assert (Sk : obj_set k x acc = (acc ++ [(k, x)])%list).
  { apply obj_set_last. apply Forall_forall. intros a Ia. apply (A a (k, x)); auto. left. reflexivity. }
  cbn [map fst] in Inc. apply increasing_tail in Inc. destruct Inc as [Inc Lt].
  assert (A' : forall a b, In a (acc ++ [(k, x)])%list -> In b l -> str_lt (fst a) (fst b) = true).
  { intros a b Ia Ib. apply in_app_iff in Ia. destruct Ia as [Ia|[<- |[]]].
    - apply A; auto. right. exact Ib.
    - rewrite Forall_forall in Lt. apply Lt. apply in_map. exact Ib. }
  set (g := fun e : string * json => indent (n + 2) ++ dump_str (fst e) ++ ": " ++ pretty (n + 2) (snd e)) in *.
  assert (Head : forall rest, stops rest -> parse_members (S f) (pre ++ g (k, x) ++ rest) acc =
    match eat_word "," (skip_ws rest) with
    | Some r' => parse_members f r' (acc ++ [(k, x)])%list
    | None => match eat_word "}" (skip_ws rest) with Some r' => Some ((acc ++ [(k, x)])%list, r') | None => None end
    end).
  { intros rest St. unfold g. cbn [fst snd]. cbn [parse_members]. rewrite Pre, !app_assoc_s, skip_indent, quote_app.
    rewrite skip_stop by reflexivity.
    match goal with |- context [eat_word quote (String (chr 34) ?s)] => change (eat_word quote (String (chr 34) s)) with (Some s) end.
    cbv iota beta. rewrite parse_escaped. cbn [append]. rewrite skip_stop by reflexivity.
    match goal with |- context [eat_word ":" (String ":" ?s)] => change (eat_word ":" (String ":" s)) with (Some s) end.
    cbv iota beta. pose proof (reads_indented x Gx 1 (n + 2) f rest ltac:(lia) St) as Q. cbn [indent append] in Q. rewrite Q.
    cbv zeta. rewrite Sk. reflexivity. }
  destruct l as [|y l].
  - change (String.concat comma_line (map g [(k, x)])) with (g (k, x)). rewrite Head by apply stops_newline.
    cbn [append]. rewrite skip_end by reflexivity. reflexivity.
  - change (String.concat comma_line (map g ((k, x) :: y :: l))) with (g (k, x) ++ comma_line ++ String.concat comma_line (map g (y :: l))).
    rewrite !app_assoc_s. rewrite Head by reflexivity.
    unfold comma_line at 1 3. rewrite !app_assoc_s. cbn [append]. rewrite skip_stop by reflexivity.
    match goal with |- context [eat_word "," (String "," ?s)] => change (eat_word "," (String "," s)) with (Some s) end.
    cbv iota beta.
    match goal with |- context [parse_members f ?s] => change s with (newline ++ String.concat comma_line (map g (y :: l)) ++ newline ++ indent n ++ "}" ++ r) end.
    rewrite (IH Inc Gl ltac:(discriminate)); [rewrite <- app_assoc; reflexivity|unfold list_sum in *; cbn [map fold_right] in *; lia|reflexivity|exact A'].
Qed.

Lemma skip_some s : plain_first s -> forall pre, (forall s, skip_ws (pre ++ s) = skip_ws s) -> skip_ws (pre ++ s) = s.
Proof. intros P pre H. rewrite H. apply skip_plain. exact P. Qed.

Lemma indented_reads j : readable j -> reads j.
Proof.
  induction j as [|b|z|t|s|l IH|l IH] using json_ind'; intros W; unfold reads; intros n f r F S.
  - destruct f; [cbn in F; lia|]. reflexivity.
  - destruct f; [cbn in F; lia|]. destruct b; reflexivity.
  - inversion W; subst. apply good_number; auto; [apply dump_int_first|apply dump_int_chars|apply number_of_int; auto].
  - inversion W as [| | |? N| | |]; subst. destruct (float_chars t N) as [A B].
    cbn [pretty dump]. apply good_number; auto.
  - destruct f; [cbn in F; lia|]. cbn [pretty dump]. rewrite quote_app. cbn [parse_value].
    rewrite skip_stop by reflexivity. change (code (chr 34)) with 34. cbn [Z.eqb Pos.eqb]. rewrite parse_escaped. reflexivity.
  - inversion W as [| | | | |? Wl|]; subst. cbn [JsonProofs.need] in F. destruct f as [|f]; [lia|].
    destruct l as [|x l]; [reflexivity|].
    assert (Gl : Forall reads (x :: l)).
    { clear -IH Wl. induction IH; constructor; inversion Wl; subst; auto. }
    change (pretty n (JArr (x :: l))) with
      ("[" ++ newline ++ String.concat comma_line (map (fun v => indent (n + 2) ++ pretty (n + 2) v) (x :: l)) ++ newline ++ indent n ++ "]").
    rewrite !app_assoc_s.
    match goal with |- parse_value _ ("[" ++ ?s) = _ => set (rest := s) end.
    cbn [append parse_value]. rewrite skip_stop by reflexivity. change (code "[") with 91. cbn [Z.eqb Pos.eqb].
    assert (Pf : exists s', plain_first s' /\ skip_ws rest = s').
    { unfold rest. rewrite skip_newline. destruct l as [|y l]; cbn [map String.concat]; rewrite !app_assoc_s, skip_indent;
        (eexists; split; [|apply skip_plain]); apply plain_app, pretty_first; inversion Wl; assumption. }
    destruct Pf as (s' & Pf & ->). rewrite (eat_other "]"%char _ Pf) by auto. unfold rest.
    rewrite (elems_read n (x :: l) Gl ltac:(discriminate) f newline r); [reflexivity|lia|intros; apply skip_newline].
  - inversion W as [| | | | | |? Inc Wl]; subst. cbn [JsonProofs.need] in F. destruct f as [|f]; [lia|].
    destruct l as [|x l]; [reflexivity|].
    assert (Gl : Forall (fun kv => reads (snd kv)) (x :: l)).
    { clear -IH Wl. induction IH; constructor; inversion Wl; subst; auto. }
    change (pretty n (JObj (x :: l))) with
      ("{" ++ newline ++ String.concat comma_line (map (fun e => indent (n + 2) ++ dump_str (fst e) ++ ": " ++ pretty (n + 2) (snd e)) (x :: l)) ++ newline ++ indent n ++ "}").
    rewrite !app_assoc_s.
    match goal with |- parse_value _ ("{" ++ ?s) = _ => set (rest := s) end.
    cbn [append parse_value]. rewrite skip_stop by reflexivity. change (code "{") with 123. cbn [Z.eqb Pos.eqb].
    assert (Pf : exists s', plain_first s' /\ skip_ws rest = s').
    { unfold rest. rewrite skip_newline. destruct l as [|y l]; cbn [map String.concat]; rewrite !app_assoc_s, skip_indent, quote_app;
        (eexists; split; [|apply skip_plain]); (do 2 eexists; split; [reflexivity|]; cbv; intuition discriminate). }
    destruct Pf as (s' & Pf & ->). rewrite (eat_other "}"%char _ Pf) by auto. unfold rest.
    rewrite (members_read n (x :: l) Inc Gl ltac:(discriminate) f newline r []); [reflexivity|lia|intros; apply skip_newline|intros a b []].
Qed.

Lemma concat_longer l sep : (1 <= String.length sep)%nat -> (String.length (String.concat sep l) + 1 >= list_sum (map (fun s => S (String.length s)) l))%nat.
Proof.
  intros H. induction l as [|x l IH]; cbn; [lia|]. destruct l as [|y l].
  - cbn. lia.
  - rewrite !app_length_s. unfold list_sum in *. cbn [map fold_right] in *.
    change (match l with [] => y | _ :: _ => y ++ sep ++ String.concat sep l end) with (String.concat sep (y :: l)).
    lia.
Qed.

Lemma need_pretty j : forall n, (JsonProofs.need j <= S (2 * String.length (pretty n j)))%nat.
Proof.
  induction j as [|b|z|t|s|l IH|l IH] using json_ind'; intros n; try (cbn; lia).
  - destruct l as [|x l]; [cbn; lia|].
    change (pretty n (JArr (x :: l))) with
      ("[" ++ newline ++ String.concat comma_line (map (fun v => indent (n + 2) ++ pretty (n + 2) v) (x :: l)) ++ newline ++ indent n ++ "]").
    rewrite !app_length_s. change (String.length "[") with 1%nat.
    pose proof (concat_longer (map (fun v => indent (n + 2) ++ pretty (n + 2) v) (x :: l)) comma_line ltac:(cbn; lia)) as C.
    set (g := fun v => indent (n + 2) ++ pretty (n + 2) v) in *.
    assert (E : (list_sum (map (fun x => S (JsonProofs.need x)) (x :: l)) <= 2 * list_sum (map (fun s => S (String.length s)) (map g (x :: l))))%nat).
    { clear C. revert IH. generalize (x :: l). intros m IH. induction IH as [|a m H IHm IH']; [cbn; lia|].
      unfold list_sum in *. cbn [map fold_right]. specialize (H (n + 2)%nat).
      assert (L : (String.length (pretty (n + 2) a) <= String.length (g a))%nat) by (unfold g; rewrite app_length_s; lia). lia. }
    cbn [JsonProofs.need]. lia.
  - destruct l as [|x l]; [cbn; lia|].
    change (pretty n (JObj (x :: l))) with
      ("{" ++ newline ++ String.concat comma_line (map (fun e => indent (n + 2) ++ dump_str (fst e) ++ ": " ++ pretty (n + 2) (snd e)) (x :: l)) ++ newline ++ indent n ++ "}").
    rewrite !app_length_s. change (String.length "{") with 1%nat.
    pose proof (concat_longer (map (fun e : string * json => indent (n + 2) ++ dump_str (fst e) ++ ": " ++ pretty (n + 2) (snd e)) (x :: l)) comma_line ltac:(cbn; lia)) as C.
    set (g := fun e : string * json => indent (n + 2) ++ dump_str (fst e) ++ ": " ++ pretty (n + 2) (snd e)) in *.
    assert (E : (list_sum (map (fun kv => S (JsonProofs.need (snd kv))) (x :: l)) <= 2 * list_sum (map (fun s => S (String.length s)) (map g (x :: l))))%nat).
    { clear C. revert IH. generalize (x :: l). intros m IH. induction IH as [|a m H IHm IH']; [cbn; lia|].
      unfold list_sum in *. cbn [map fold_right]. specialize (H (n + 2)%nat).
      assert (L : (String.length (pretty (n + 2) (snd a)) <= String.length (g a))%nat) by (unfold g; rewrite !app_length_s; lia). lia. }
    cbn [JsonProofs.need]. lia.
Qed.

Lemma parse_pretty j : readable j -> parse (pretty 0 j) = Some j.
Proof.
  intros W. unfold parse. pose proof (indented_reads j W 0%nat (S (2 * String.length (pretty 0 j))) "" (need_pretty j 0) I) as H.
  rewrite app_nil_s in H. rewrite H. reflexivity.
Qed.
