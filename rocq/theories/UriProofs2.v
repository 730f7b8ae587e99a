(** Addresses of the central system. *)
From Coq Require Import String Ascii ZArith List Bool Lia.
From Verif Require Import UriModel UriSpec.
Import ListNotations.
Local Open Scope Z_scope.

Lemma text_eqb_spec : forall a b, text_eqb a b = true <-> a = b.
Proof.
  induction a as [|x p IH]; intros [|y q]; cbn; try (split; congruence).
  rewrite andb_true_iff, Z.eqb_eq, IH. split; [intros [-> ->]; reflexivity|intros E; injection E as -> ->; auto].
Qed.
Lemma starts_with_spec : forall p s, starts_with p s = true <-> exists b, s = p ++ b.
Proof.
  induction p as [|x p IH]; intros s; cbn [starts_with].
  - split; [intros _; exists s; reflexivity|reflexivity].
  - destruct s as [|y s]; [split; [discriminate|intros [b E]; discriminate E]|].
    rewrite andb_true_iff, Z.eqb_eq, IH. split.
    + intros [-> [b ->]]. exists b. reflexivity.
    + intros [b E]. cbn in E. injection E as -> ->. split; [reflexivity|exists b; reflexivity].
Qed.
Lemma contains_spec : forall p s, contains p s = true <-> exists a b, s = a ++ p ++ b.
Proof.
  intros p s. induction s as [|c q IH]; cbn [contains]; rewrite orb_true_iff, starts_with_spec.
  - split; [intros [[b E]|E]; [exists [], b; exact E|discriminate E]|].
    intros (a&b&E). left. destruct a; [exists b; exact E|discriminate E].
  - rewrite IH. split.
    + intros [[b E]|(a&b&E)]; [exists [], b; exact E|exists (c :: a), b; cbn; rewrite E; reflexivity].
    + intros (a&b&E). destruct a as [|x a]; [left; exists b; exact E|right]. cbn in E. injection E as _ E. exists a, b. exact E.
Qed.

(** ** Reading an address *)
Definition tail (p r : option (list Z)) : list Z := port_part p ++ path_text r.
Definition rest (r : option (list Z)) : list Z := match r with None => [] | Some r => r end.
Definition s_secure (s : scheme) (profile : Z) : bool :=
  match s with NoScheme => 2 <=? profile | Ws | Http => false | Wss | Https => true end.

Lemma read_to_app : forall c l q, ~ In c l -> read_to c (l ++ c :: q) = (l, true, q).
Proof.
  intros c l q. induction l as [|x l IH]; intros N; cbn [app read_to].
  - rewrite Z.eqb_refl. reflexivity.
  - destruct (x =? c) eqn:E; [apply Z.eqb_eq in E; elim N; left; exact E|]. rewrite IH; [reflexivity|]. intros I. apply N. right. exact I.
Qed.
Lemma read_to_all : forall c l, ~ In c l -> read_to c l = (l, false, []).
Proof.
  intros c l. induction l as [|x l IH]; intros N; cbn [read_to]; [reflexivity|].
  destruct (x =? c) eqn:E; [apply Z.eqb_eq in E; elim N; left; exact E|]. rewrite IH; [reflexivity|]. intros I. apply N. right. exact I.
Qed.
Lemma read_to_path : forall l r, ~ In 47 l -> exists e, read_to 47 (l ++ path_text r) = (l, e, rest r).
Proof.
  intros l [r|] N; cbn [path_text rest].
  - exists true. apply read_to_app. exact N.
  - exists false. rewrite app_nil_r. apply read_to_all. exact N.
Qed.
Lemma read_host_app : forall h c q, ~ In 47 h -> ~ In 58 h -> c = 47 \/ c = 58 -> read_host (h ++ c :: q) = (h, Some c, q).
Proof.
  intros h c q. induction h as [|x h IH]; intros N1 N2 K; cbn [app read_host].
  - destruct K as [-> | ->]; reflexivity.
  - replace (x =? 47) with false by (symmetry; apply Z.eqb_neq; intros E; apply N1; left; exact E).
    replace (x =? 58) with false by (symmetry; apply Z.eqb_neq; intros E; apply N2; left; exact E). cbn [orb].
    rewrite IH; [reflexivity| | |exact K]; intros I; [apply N1|apply N2]; right; exact I.
Qed.
Lemma read_host_all : forall h, ~ In 47 h -> ~ In 58 h -> read_host h = (h, None, []).
Proof.
  intros h. induction h as [|x h IH]; intros N1 N2; cbn [read_host]; [reflexivity|].
  replace (x =? 47) with false by (symmetry; apply Z.eqb_neq; intros E; apply N1; left; exact E).
  replace (x =? 58) with false by (symmetry; apply Z.eqb_neq; intros E; apply N2; left; exact E). cbn [orb].
  rewrite IH; [reflexivity| |]; intros I; [apply N1|apply N2]; right; exact I.
Qed.
Definition after_host (p r : option (list Z)) : bool * list Z :=
  match p with Some l => (true, l ++ path_text r) | None => (false, rest r) end.
Lemma read_name : forall h p r, ~ In 47 h -> ~ In 58 h ->
  exists e, read_host (h ++ tail p r) = (h, e, snd (after_host p r)) /\
            match e with Some d => d =? 58 | None => false end = fst (after_host p r).
Proof.
  intros h p r N1 N2. unfold tail, after_host. destruct p as [l|]; cbn [port_part fst snd app].
  - exists (Some 58). split; [apply read_host_app; auto|reflexivity].
  - destruct r as [r|]; cbn [path_text rest].
    + exists (Some 47). split; [apply read_host_app; auto|reflexivity].
    + exists None. rewrite app_nil_r. split; [apply read_host_all; auto|reflexivity].
Qed.
Lemma authority : forall h p r, host_ok h ->
  read_authority (host_text h ++ tail p r) = Some (host_name h, fst (after_host p r), snd (after_host p r)).
Proof.
  intros [h|h] p r O; cbn [host_text host_name host_ok] in *.
  - destruct O as (N0&N1&N2&N3). destruct (read_name h p r N1 N2) as (e&R&X). destruct h as [|c q]; [congruence|].
    cbn [app] in *. unfold read_authority. cbn [hd] in N3.
    replace (c =? 91) with false by (symmetry; apply Z.eqb_neq; exact N3). rewrite R. rewrite X. reflexivity.
  - cbn [app]. unfold read_authority. cbn [Z.eqb Pos.eqb]. rewrite <- app_assoc. cbn [app]. rewrite read_to_app by exact O. cbn [negb].
    unfold tail, after_host. destruct p as [l|]; [reflexivity|]. destruct r as [r|]; reflexivity.
Qed.
Lemma decimal_digits : forall l n m, decimal l n = Some m -> Forall (fun c => 48 <= c <= 57) l.
Proof.
  induction l as [|c q IH]; intros n m D; [constructor|]. cbn [decimal] in D.
  destruct ((48 <=? c) && (c <=? 57)) eqn:E; [|discriminate D]. apply andb_true_iff in E. constructor; [lia|]. exact (IH _ _ D).
Qed.
Lemma number_decimal : forall l n m, decimal l n = Some m -> number l (Some n) = Some m.
Proof.
  induction l as [|c q IH]; intros n m D; cbn [decimal number] in *; [exact D|]. unfold is_digit.
  destruct ((48 <=? c) && (c <=? 57)); [|discriminate D]. apply IH. exact D.
Qed.
Lemma number_decimal0 : forall l m, l <> [] -> decimal l 0 = Some m -> number l None = Some m.
Proof.
  intros [|c q] m N D; [congruence|]. cbn [decimal number] in *. unfold is_digit.
  destruct ((48 <=? c) && (c <=? 57)); [|discriminate D]. apply number_decimal. exact D.
Qed.
Lemma stoul_decimal : forall l n, l <> [] -> decimal l 0 = Some n -> n <= 65535 -> stoul l = Ok n.
Proof.
  intros l n N D B. pose proof (number_decimal0 l n N D) as E. pose proof (decimal_digits l _ _ D) as F.
  destruct l as [|c q]; [congruence|]. inversion F as [|? ? K _]; subst. unfold stoul. cbn [skip_spaces].
  replace (is_space c) with false by (unfold is_space; symmetry; apply orb_false_iff; split; [lia|apply andb_false_iff; right; lia]).
  replace (c =? 45) with false by lia. replace (c =? 43) with false by lia. rewrite E.
  replace (18446744073709551615 <? n) with false by lia. reflexivity.
Qed.
Lemma port_text_ok : forall secure p n, port_ok p secure n ->
  port_from_string secure (match p with Some l => l | None => [] end) = Ok (n, true).
Proof.
  intros secure [l|] n P; cbn [port_ok] in P.
  - destruct P as (N&D&B). unfold port_from_string. rewrite (stoul_decimal l n N D) by lia. destruct l; [congruence|].
    rewrite Z.mod_small by lia. replace (65535 <? n) with false by lia. replace (n =? 0) with false by lia. reflexivity.
  - subst n. reflexivity.
Qed.
Lemma host_nonempty : forall h, host_ok h -> host_text h <> [].
Proof. intros [h|h] O; cbn in *; [tauto|discriminate]. Qed.
Lemma scheme_read : forall s x, s <> NoScheme -> x <> [] -> exists t,
  read_scheme (scheme_text s ++ x) = Some (match s with Wss | Https => true | _ => false end, t, x).
Proof.
  intros s x N X. destruct x as [|c q]; [congruence|].
  destruct s; [congruence|exists (txt "ws")|exists (txt "wss")|exists (txt "http")|exists (txt "https")];
    unfold read_scheme; cbv zeta;
    repeat match goal with |- context [starts_with ?a ?l] => let v := eval lazy in (starts_with a l) in change (starts_with a l) with v end;
    rewrite ?andb_false_r, ?andb_true_r;
    match goal with |- context [?k <=? Z.of_nat (length ?l)] =>
      let m := eval lazy in l in replace (k <=? Z.of_nat (length l)) with true
        by (symmetry; apply Z.leb_le; change l with m; cbn [length]; lia) end; reflexivity.
Qed.
Lemma parse_address : forall s h p r n, s <> NoScheme -> host_ok h ->
  port_ok p (match s with Wss | Https => true | _ => false end) n ->
  exists t, parse (address s h p r) =
    Ok (U (match s with Wss | Https => true | _ => false end) t (host_name h) n (47 :: rest r) true).
Proof.
  intros s h p r n N O P. unfold address.
  destruct (scheme_read s (host_text h ++ port_part p ++ path_text r) N) as (t&R).
  { intros E. apply app_eq_nil in E. exact (host_nonempty h O (proj1 E)). }
  exists t. unfold parse. rewrite R. change (port_part p ++ path_text r) with (tail p r). rewrite (authority h p r O).
  pose proof (port_text_ok _ p n P) as PT. destruct p as [l|]; cbn [after_host fst snd].
  - assert (NI : ~ In 47 l).
    { destruct P as (_&D&_). pose proof (decimal_digits l _ _ D) as F. intros I. rewrite Forall_forall in F. specialize (F 47 I). lia. }
    destruct (read_to_path l r NI) as (e&RT). rewrite RT, PT. reflexivity.
  - rewrite PT. reflexivity.
Qed.

(** ** The last segment *)
Lemma split_last_app : forall p, fst (split_last p) ++ snd (split_last p) = p.
Proof.
  induction p as [|c q IH]; [reflexivity|]. cbn [split_last]. destruct (split_last q) as [a b]. cbn [fst snd] in IH.
  destruct a as [|x a]; cbn [app] in IH; [|cbn [fst snd app]; rewrite <- IH; reflexivity].
  destruct (c =? 47); cbn [fst snd app]; rewrite IH; reflexivity.
Qed.
Lemma split_last_no : forall p, ~ In 47 (snd (split_last p)).
Proof.
  induction p as [|c q IH]; [intros []|]. cbn [split_last]. destruct (split_last q) as [a b]. cbn [fst snd] in IH.
  destruct a as [|x a]; [|exact IH]. destruct (c =? 47) eqn:E; [exact IH|]. cbn [snd]. intros [I|I]; [apply Z.eqb_neq in E; lia|exact (IH I)].
Qed.
Lemma split_last_none : forall q, ~ In 47 q -> split_last q = ([], q).
Proof.
  induction q as [|c q IH]; intros N; [reflexivity|]. cbn [split_last]. rewrite IH by (intros I; apply N; right; exact I).
  replace (c =? 47) with false; [reflexivity|]. symmetry. apply Z.eqb_neq. intros E. apply N. left. exact E.
Qed.
Lemma split_last_at : forall a b, ~ In 47 b -> split_last (a ++ 47 :: b) = (a ++ [47], b).
Proof.
  intros a b N. induction a as [|c a IH]; cbn [app split_last].
  - rewrite split_last_none by exact N. reflexivity.
  - rewrite IH. destruct (a ++ [47]) eqn:E; [destruct a; discriminate E|reflexivity].
Qed.
Lemma split_last_dir : forall p, In 47 p -> exists a, fst (split_last p) = a ++ [47].
Proof.
  induction p as [|c q IH]; [intros []|]. intros I. cbn [split_last]. destruct (split_last q) as [a b] eqn:S.
  destruct a as [|x a].
  - destruct (c =? 47) eqn:E; [exists []; apply Z.eqb_eq in E; subst; reflexivity|].
    destruct I as [I|I]; [apply Z.eqb_neq in E; lia|]. destruct (IH I) as (a&X). cbn in X. destruct a; discriminate X.
  - assert (J : In 47 q).
    { destruct (in_dec Z.eq_dec 47 q) as [J|J]; [exact J|]. rewrite split_last_none in S by exact J. discriminate S. }
    destruct (IH J) as (y&X). cbn [fst] in X. exists (c :: y). cbn [fst app]. rewrite X. reflexivity.
Qed.
Definition base_path (path id : list Z) : list Z :=
  let '(without, base) := path_split_last_segment path in with_slash (if text_eqb base id then without else path).
Lemma with_slash_closed : forall r, with_slash (47 :: r) = closed r.
Proof.
  intros r. unfold with_slash, closed. destruct r as [|c q]; [reflexivity|]. cbn [last].
  change (match q with [] => c | _ :: _ => last q 0 end) with (last (c :: q) 0). destruct (last (c :: q) 0 =? 47); reflexivity.
Qed.
Lemma last_snoc : forall (A : Type) (l : list A) x d, last (l ++ [x]) d = x.
Proof. intros. apply last_last. Qed.
(** The path of the identity, when it is not followed by a slash. *)
Lemma base_path_spec : forall r id p, id <> [] -> bare r id -> directory r id p -> base_path (47 :: rest r) id = p.
Proof.
  intros r id p I B D. destruct r as [r|].
  2:{ cbn in D. subst p. unfold base_path. cbn [rest].
      change (path_split_last_segment [47]) with ([47], @nil Z). cbn iota. destruct id; reflexivity. }
  cbn [rest directory bare] in *. unfold base_path, path_split_last_segment.
  destruct (text_eqb (47 :: r) [47]) eqn:E0.
  { apply text_eqb_spec in E0. injection E0 as ->. destruct D as [(b&(N&_&_&K)&_)|(_&D)].
    - exfalso. destruct K as [K|K]; symmetry in K; apply app_eq_nil in K; [apply I; apply K|].
      destruct K as [_ K]. apply app_eq_nil in K. apply I. apply K.
    - subst p. destruct id; reflexivity. }
  destruct (split_last (47 :: r)) as [a b] eqn:S.
  assert (SA : a ++ b = 47 :: r) by (rewrite <- (split_last_app (47 :: r)), S; reflexivity).
  assert (SN : ~ In 47 b) by (pose proof (split_last_no (47 :: r)) as X; rewrite S in X; exact X).
  assert (SD : exists a', a = a' ++ [47]) by (pose proof (split_last_dir (47 :: r) (or_introl eq_refl)) as X; rewrite S in X; exact X).
  destruct D as [(before&(N&_&BD&K)&->)|(NE&->)].
  - destruct K as [K|K]; [|exfalso; exact (B before K)]. subst r.
    assert (Q : split_last (47 :: before ++ id) = (47 :: before, id)).
    { destruct BD as [-> | (c&->)]; [apply (split_last_at [] id N)|].
      rewrite <- app_assoc. cbn [app]. apply (split_last_at (47 :: c) id N). }
    rewrite Q in S. injection S as <- <-. destruct id as [|i0 id]; [congruence|].
    replace (text_eqb (i0 :: id) (i0 :: id)) with true by (symmetry; apply text_eqb_spec; reflexivity).
    rewrite with_slash_closed. destruct BD as [-> | (c&->)]; [reflexivity|]. unfold closed. rewrite last_snoc.
    destruct (c ++ [47]) eqn:E; [destruct c; discriminate E|reflexivity].
  - destruct b as [|b0 b].
    + replace (text_eqb [] id) with false by (destruct id; [congruence|reflexivity]). apply with_slash_closed.
    + destruct (text_eqb (b0 :: b) id) eqn:E; [|apply with_slash_closed]. exfalso. apply text_eqb_spec in E. subst id.
      destruct SD as (a'&->). destruct a' as [|x a'].
      * cbn [app] in SA. injection SA as <-. apply (NE []). repeat split; auto.
      * cbn [app] in SA. injection SA as -> <-. apply (NE (a' ++ [47])). repeat split; eauto. 
Qed.
Lemma validate_unfold : forall s id profile, s <> [] -> id <> [] ->
  parse_and_validate s id profile =
  let added := negb (contains (txt "://") s) in
  match parse (if added then (if 2 <=? profile then txt "wss://" else txt "ws://") ++ s else s) with
  | InvalidArgument => InvalidArgument
  | OutOfRange => OutOfRange
  | Ok u =>
      if negb (u_valid u) then InvalidArgument
      else if negb added &&
              (if (profile =? 0) || (profile =? 1) then u_secure u
               else if (profile =? 2) || (profile =? 3) then negb (u_secure u) else true)
      then InvalidArgument
      else Ok (C (u_secure u) (u_host u) (u_port u) (base_path (u_resource u) id) id)
  end.
Proof.
  intros s id profile S I. unfold parse_and_validate, base_path. destruct s; [congruence|]. destruct id; [congruence|].
  cbv zeta. destruct (parse _) as [u| |]; try reflexivity. destruct (path_split_last_segment (u_resource u)) as [w b]. reflexivity.
Qed.

(** ** What an accepted address looks like *)
Lemma skipn_app_exact : forall (A : Type) (a b : list A), skipn (length a) (a ++ b) = b.
Proof. induction a as [|x a IH]; intros b; [reflexivity|apply IH]. Qed.
Lemma scheme_inv : forall s sec t x, read_scheme s = Some (sec, t, x) ->
  exists sch, sch <> NoScheme /\ s = scheme_text sch ++ x /\ sec = match sch with Wss | Https => true | _ => false end.
Proof.
  intros s sec t x R. unfold read_scheme in R. cbv zeta in R.
  destruct (_ && starts_with (txt "wss://") s) eqn:E1.
  { apply andb_true_iff in E1. destruct E1 as [_ E]. apply starts_with_spec in E. destruct E as (b&->).
    assert (X : x = b /\ sec = true) by (change 6%nat with (length (txt "wss://")) in R; rewrite skipn_app_exact in R; split; congruence).
    destruct X as [-> ->]. exists Wss. repeat split. discriminate. }
  destruct (_ && starts_with (txt "ws://") s) eqn:E2.
  { apply andb_true_iff in E2. destruct E2 as [_ E]. apply starts_with_spec in E. destruct E as (b&->).
    assert (X : x = b /\ sec = false) by (change 5%nat with (length (txt "ws://")) in R; rewrite skipn_app_exact in R; split; congruence).
    destruct X as [-> ->]. exists Ws. repeat split. discriminate. }
  destruct (_ && starts_with (txt "http://") s) eqn:E3.
  { apply andb_true_iff in E3. destruct E3 as [_ E]. apply starts_with_spec in E. destruct E as (b&->).
    assert (X : x = b /\ sec = false) by (change 7%nat with (length (txt "http://")) in R; rewrite skipn_app_exact in R; split; congruence).
    destruct X as [-> ->]. exists Http. repeat split. discriminate. }
  destruct (_ && starts_with (txt "https://") s) eqn:E4; [|discriminate R].
  { apply andb_true_iff in E4. destruct E4 as [_ E]. apply starts_with_spec in E. destruct E as (b&->).
    assert (X : x = b /\ sec = true) by (change 8%nat with (length (txt "https://")) in R; rewrite skipn_app_exact in R; split; congruence).
    destruct X as [-> ->]. exists Https. repeat split. discriminate. }
Qed.
Lemma read_to_inv : forall c s h e r, read_to c s = (h, e, r) -> ~ In c h /\ s = h ++ (if e then c :: r else []) /\ (e = false -> r = []).
Proof.
  intros c s. induction s as [|x q IH]; intros h e r R; cbn [read_to] in R.
  - injection R as <- <- <-. repeat split; auto.
  - destruct (x =? c) eqn:E.
    + injection R as <- <- <-. apply Z.eqb_eq in E. subst x. repeat split; auto; discriminate.
    + destruct (read_to c q) as [[h1 e1] r1]. injection R as <- <- <-. destruct (IH _ _ _ eq_refl) as (N&S&Z).
      split; [|split].
      * intros [K|K]; [apply Z.eqb_neq in E; congruence|exact (N K)].
      * cbn [app]. rewrite <- S. reflexivity.
      * exact Z.
Qed.
Lemma read_host_inv : forall s h e r, read_host s = (h, e, r) ->
  ~ In 47 h /\ ~ In 58 h /\ match e with Some c => (c = 47 \/ c = 58) /\ s = h ++ c :: r | None => s = h /\ r = [] end.
Proof.
  induction s as [|x q IH]; intros h e r R; cbn [read_host] in R.
  - injection R as <- <- <-. repeat split; auto.
  - destruct ((x =? 47) || (x =? 58)) eqn:E.
    + injection R as <- <- <-. apply orb_true_iff in E. rewrite !Z.eqb_eq in E. repeat split; auto.
    + destruct (read_host q) as [[h1 e1] r1]. injection R as <- <- <-. destruct (IH _ _ _ eq_refl) as (N1&N2&S).
      apply orb_false_iff in E. rewrite !Z.eqb_neq in E. destruct E as [E1 E2]. split; [|split].
      * intros [K|K]; [congruence|exact (N1 K)].
      * intros [K|K]; [congruence|exact (N2 K)].
      * destruct e1 as [d|]; [destruct S as [D S]; split; [exact D|cbn [app]; rewrite <- S; reflexivity]|].
        destruct S as [S ->]. subst. split; reflexivity.
Qed.
Lemma authority_inv : forall s hn has r0, read_authority s = Some (hn, has, r0) ->
  exists h, hn = host_name h /\
    (match h with Name n => ~ In 47 n /\ ~ In 58 n /\ hd 0 n <> 91 | V6 n => ~ In 93 n end) /\
    s = host_text h ++ (if has then 58 :: r0 else match r0 with [] => skipn (length (host_text h)) s | _ => 47 :: r0 end) /\
    (has = false -> r0 = [] -> s = host_text h \/ s = host_text h ++ [47]).
Proof.
  intros s hn has r0 R. destruct s as [|c q].
  { cbn in R. injection R as <- <- <-. exists (Name []). cbn. repeat split; auto. discriminate. }
  unfold read_authority in R. destruct (c =? 91) eqn:E.
  - apply Z.eqb_eq in E. subst c. destruct (read_to 93 q) as [[h closed] r] eqn:T. destruct (read_to_inv _ _ _ _ _ T) as (N&S&_).
    destruct closed; cbn [negb] in R; [|discriminate R]. destruct r as [|d r1].
    + injection R as <- <- <-. exists (V6 h). cbn [host_name host_text]. subst q. repeat split; auto.
      cbn [app]. rewrite <- (app_nil_r (91 :: h ++ [93])) at 1. cbn [app]. f_equal. rewrite <- !app_assoc. f_equal. cbn [app length].
      change (91 :: h ++ [93]) with ((91 :: h ++ [93]) : list Z). rewrite skipn_all2; [reflexivity|]. cbn. lia.
    + destruct (d =? 47) eqn:D.
      * apply Z.eqb_eq in D. subst d. injection R as <- <- <-. exists (V6 h). cbn [host_name host_text]. subst q.
        assert (Q : 91 :: h ++ 93 :: 47 :: r1 = (91 :: h ++ [93]) ++ 47 :: r1) by (cbn [app]; rewrite <- app_assoc; reflexivity).
        repeat split; auto.
        -- rewrite Q. destruct r1; [rewrite skipn_app_exact|]; reflexivity.
        -- intros _ ->. right. exact Q.
      * destruct (d =? 58) eqn:D2; [|discriminate R]. apply Z.eqb_eq in D2. subst d. injection R as <- <- <-. exists (V6 h).
        cbn [host_name host_text]. subst q. repeat split; auto; [|discriminate]. cbn [app]. rewrite <- app_assoc. reflexivity.
  - destruct (read_host (c :: q)) as [[h e] r] eqn:T. injection R as <- <- <-. destruct (read_host_inv _ _ _ _ T) as (N1&N2&S).
    assert (HD : hd 0 h <> 91).
    { destruct h as [|x h]; [discriminate|]. apply Z.eqb_neq in E. cbn [hd].
      destruct e as [d|]; [destruct S as [_ S]|destruct S as [S _]]; cbn [app] in S; injection S as -> _; exact E. }
    exists (Name h). cbn [host_name host_text]. repeat split; auto.
    + destruct e as [d|]; [destruct S as [[-> | ->] S]|destruct S as [S ->]].
      * cbn [Z.eqb Pos.eqb]. rewrite S. destruct r; [rewrite skipn_app_exact|]; reflexivity.
      * exact S.
      * rewrite S at 1. rewrite S. rewrite skipn_all. rewrite app_nil_r. reflexivity.
    + intros HF ->. destruct e as [d|]; [destruct S as [[-> | ->] S]|destruct S as [S _]].
      * right. exact S.
      * discriminate HF.
      * left. exact S.
Qed.
Lemma port_valid : forall sec l n, port_from_string sec l = Ok (n, true) -> 1 <= n <= 65535 /\ (l = [] -> n = if sec then 443 else 80).
Proof.
  intros sec l n P. unfold port_from_string in P. destruct l as [|c q].
  - injection P as <-. destruct sec; split; intros; try reflexivity; lia.
  - split; [|discriminate]. destruct (stoul (c :: q)) as [m| |] eqn:T; try discriminate P.
    assert (X : n = m mod 65536 /\ negb (65535 <? m) && negb (m =? 0) = true) by (split; congruence). clear P. destruct X as [-> X].
    apply andb_true_iff in X. rewrite !negb_true_iff in X. destruct X as [X1 X2]. apply Z.ltb_ge in X1. apply Z.eqb_neq in X2.
    assert (G : 0 <= m).
    { unfold stoul in T. cbv zeta in T. destruct (match skip_spaces (c :: q) with [] => _ | _ => _ end) as [neg s2].
      destruct (number s2 None) as [k|] eqn:N; [|discriminate T]. destruct (18446744073709551615 <? k); [discriminate T|]. injection T as <-.
      destruct neg; [apply Z.mod_pos_bound; lia|]. revert N.
      assert (A : forall s acc k, (forall a, acc = Some a -> 0 <= a) -> number s acc = Some k -> 0 <= k).
      { clear. induction s as [|c q IH]; intros acc k A N; cbn [number] in N; [exact (A k N)|].
        destruct (is_digit c) eqn:D; [|exact (A k N)]. refine (IH _ _ _ N). intros a E.
        unfold is_digit in D. apply andb_true_iff in D. assert (a = 10 * match acc with Some n => n | None => 0 end + (c - 48)) as -> by congruence.
        destruct acc as [y|]; [specialize (A y eq_refl)|]; lia. }
      intros N. apply (A s2 None k); [discriminate|exact N]. }
    rewrite Z.mod_small; lia.
Qed.
Lemma parse_inv : forall s u, parse s = Ok u -> u_valid u = true ->
  exists sch h p r, sch <> NoScheme /\ s = address sch h p r /\
    (match h with Name n => ~ In 47 n /\ ~ In 58 n /\ hd 0 n <> 91 | V6 n => ~ In 93 n end) /\
    u_secure u = match sch with Wss | Https => true | _ => false end /\
    u_host u = host_name h /\ u_resource u = 47 :: rest r /\ 1 <= u_port u <= 65535 /\
    ((p = None \/ p = Some []) -> u_port u = if u_secure u then 443 else 80).
Proof.
  intros s u P V. unfold parse in P. destruct (read_scheme s) as [[[sec t] s1]|] eqn:S; [|injection P as <-; discriminate V].
  destruct (scheme_inv _ _ _ _ S) as (sch&SN&SE&SS). destruct (read_authority s1) as [[[hn has] s2]|] eqn:A; [|injection P as <-; discriminate V].
  destruct (authority_inv _ _ _ _ A) as (h&HN&HO&HS&HX). exists sch, h. destruct has.
  - destruct (read_to 47 s2) as [[l e] r] eqn:T. destruct (read_to_inv _ _ _ _ _ T) as (NI&TS&TE).
    destruct (port_from_string sec l) as [[n v]| |] eqn:PT; try discriminate P. injection P as <-. cbn [u_valid u_secure u_host u_resource u_port] in *. subst v.
    destruct (port_valid _ _ _ PT) as [B D]. exists (Some l), (if e then Some r else None). repeat split; auto; try lia.
    + unfold address. rewrite SE, HS, TS. cbn [port_part]. destruct e; reflexivity.
    + destruct e; [reflexivity|]. rewrite TE; reflexivity.
    + intros [K|K]; [discriminate K|]. injection K as ->. apply D. reflexivity.
  - destruct (port_from_string sec []) as [[n v]| |] eqn:PT; try discriminate P. injection P as <-. cbn [u_valid u_secure u_host u_resource u_port] in *. subst v.
    destruct (port_valid _ _ _ PT) as [B D].
    assert (Q : exists r, s1 = host_text h ++ path_text r /\ s2 = rest r).
    { destruct s2 as [|c q]; [|exists (Some (c :: q)); split; [exact HS|reflexivity]].
      destruct (HX eq_refl eq_refl) as [K|K]; [exists None; split; [rewrite app_nil_r; exact K|reflexivity]|exists (Some []); split; [exact K|reflexivity]]. }
    destruct Q as (r&Q1&Q2). exists None, r. repeat split; auto; try lia.
    + unfold address. rewrite SE, Q1. reflexivity.
    + rewrite Q2. reflexivity.
Qed.
Lemma base_path_shape : forall r id, exists q, base_path (47 :: r) id = 47 :: q /\ last (47 :: q) 0 = 47.
Proof.
  intros r id. unfold base_path. destruct (path_split_last_segment (47 :: r)) as [w b] eqn:P.
  assert (K : forall x, exists q, with_slash (47 :: x) = 47 :: q /\ last (47 :: q) 0 = 47).
  { intros x. unfold with_slash. destruct (last (47 :: x) 0 =? 47) eqn:E; [exists x; split; [reflexivity|apply Z.eqb_eq; exact E]|].
    exists (x ++ [47]). split; [reflexivity|]. change (47 :: x ++ [47]) with ((47 :: x) ++ [47]). apply last_snoc. }
  destruct (text_eqb b id); [|apply K]. unfold path_split_last_segment in P.
  destruct (text_eqb (47 :: r) [47]); [injection P as <- <-; apply (K [])|].
  destruct (split_last (47 :: r)) as [a b0] eqn:S.
  pose proof (split_last_app (47 :: r)) as SA. pose proof (split_last_dir (47 :: r) (or_introl eq_refl)) as SD. rewrite S in SA, SD. cbn [fst snd] in *.
  destruct SD as (a'&->). destruct b0 as [|b1 b0].
  - injection P as <- <-. destruct r as [|c q]; [exists []; split; reflexivity|]. apply (K (removelast (c :: q))).
  - injection P as <- <-. destruct a' as [|x a']; [apply (K [])|]. cbn [app] in SA. injection SA as -> _. apply (K (a' ++ [47])).
Qed.

(** ** Writing an address *)
Lemma decimal_app : forall a b n, decimal (a ++ b) n = match decimal a n with Some m => decimal b m | None => None end.
Proof.
  induction a as [|c q IH]; intros b n; cbn [app decimal]; [reflexivity|]. destruct ((48 <=? c) && (c <=? 57)); [apply IH|reflexivity].
Qed.
Lemma digits_decimal : forall f n, 0 <= n < 10 ^ Z.of_nat f -> decimal (digits f n) 0 = Some n.
Proof.
  induction f as [|f IH]; intros n B; [cbn in *; f_equal; lia|]. cbn [digits]. rewrite Nat2Z.inj_succ, Z.pow_succ_r in B by lia. rewrite decimal_app.
  assert (M : 0 <= n mod 10 < 10) by (apply Z.mod_pos_bound; lia). destruct (n <? 10) eqn:E.
  - cbn [decimal]. replace ((48 <=? 48 + n mod 10) && (48 + n mod 10 <=? 57)) with true by (symmetry; apply andb_true_iff; lia).
    f_equal. rewrite Z.mod_small by lia. lia.
  - rewrite IH by (split; [apply Z.div_pos; lia|apply Z.div_lt_upper_bound; lia]). cbn [decimal].
    replace ((48 <=? 48 + n mod 10) && (48 + n mod 10 <=? 57)) with true by (symmetry; apply andb_true_iff; lia).
    f_equal. pose proof (Z.div_mod n 10). lia.
Qed.
Lemma digits_nonempty : forall f n, digits (S f) n <> [].
Proof. intros f n E. cbn [digits] in E. apply app_eq_nil in E. destruct E as [_ E]. discriminate E. Qed.
