(** Lemmas for CfgProperties2.v: what follows an accepted change. *)
From Coq Require Import ZArith List Bool String Ascii Lia.
From Verif Require Import StrModel StrSpec StrProofs StrProperties JsonModel JsonProofs DtModel CfgSchemaLang CfgModel CfgSchema CfgTables CfgApi CfgSpec CfgProofs CfgProofs2 CfgProofs3 CfgProofs4 CfgProofs5 CfgProofs6 CfgProofs7 CfgProofs8 CfgProofs9 CfgProofs10 CfgProofs11 CfgSpec2.
Import ListNotations.
Local Open Scope string_scope.
Local Open Scope list_scope.
Local Open Scope Z_scope.

Lemma change_effects w x key text asked x' e o : change w x key text asked = (x', e, Ret (Accepted, o)) ->
  exists e0, react w x' key text asked = (e0, Ret (Accepted, o)) /\ e = e0 ++ notify w Accepted key text.
Proof.
  unfold change. intros C.
  assert (Q : forall s0 x0, set w x key text = Ret (s0, x0) ->
    (match s0 with
     | Some Accepted =>
         let (e0, r0) := react w x0 key text asked in
         match r0 with
         | Ret (s', open) => (x0, e0 ++ notify w s' key text, Ret (s', open))
         | Throws why => (x0, e0, Throws why)
         end
     | Some s' => (x0, [] ++ notify w s' key text, Ret (s', true))
     | None => (x0, [] ++ notify w Rejected key text, Ret (Rejected, true))
     end) = (x', e, Ret (Accepted, o)) -> exists e0, react w x' key text asked = (e0, Ret (Accepted, o)) /\ e = e0 ++ notify w Accepted key text).
  { clear C. intros s0 x0 _ H. destruct s0 as [[]|]; try (inversion H; fail).
    destruct (react w x0 key text asked) as [e0 [[s' o']|why]] eqn:R; [|discriminate H].
    assert (X : x0 = x' /\ e0 ++ notify w s' key text = e /\ s' = Accepted /\ o' = o) by (inversion H; auto).
    destruct X as (-> & <- & -> & ->). eauto. }
  destruct (get w x key) as [k|]; [|discriminate C].
  destruct (match k with Some _ => true | None => ci_eq key "AuthorizationKey" end); [|inversion C].
  destruct (ci_ne key "AuthorizationKey").
  - destruct k as [v|]; [|discriminate C]. destruct (kv_readonly v); [inversion C|].
    destruct (set w x key text) as [[s0 x0]|]; [exact (Q _ _ eq_refl C)|discriminate C].
  - destruct (set w x key text) as [[s0 x0]|]; [exact (Q _ _ eq_refl C)|discriminate C].
Qed.

Lemma on_change_effects w x key text x' e : on_change w x key text = (x', e) -> In (Respond Accepted) e ->
  exists e0 o, react w x' key text true = (e0, Ret (Accepted, o)) /\ incl e0 e /\ incl (notify w Accepted key text) e.
Proof.
  intros O A. destruct (answered_change _ _ _ _ _ _ _ O A) as (e1 & o & C). destruct (change_effects _ _ _ _ _ _ _ _ C) as (e0 & R & E).
  exists e0, o. split; [exact R|]. unfold on_change in O. rewrite C in O.
  assert (I : incl e1 e) by (destruct o; inversion O; subst e; intros f H; [apply in_app_iff; left; exact H|exact H]).
  split; intros f H; apply I; rewrite E; apply in_app_iff; auto.
Qed.


(** ** What react does *)

Ltac ci_now := repeat match goal with |- context [ci_eq ?a ?b] =>
  match a with String _ _ => let v := eval vm_compute in (ci_eq a b) in change (ci_eq a b) with v end end; cbv iota.
Ltac ci_in H := repeat match type of H with context [ci_eq ?a ?b] =>
  match a with String _ _ => let v := eval vm_compute in (ci_eq a b) in change (ci_eq a b) with v in H end end; cbv iota in H.

Definition small (j : json) : Prop := match j with JInt z => 0 <= z <= int_max | _ => True end.

Lemma small_wrap z : 0 <= z <= int_max -> wrap32 z = z.
Proof. unfold wrap32, int_max. intros H. rewrite Z.mod_small by lia. lia. Qed.

Lemma last_only s k j f : carries s k j f -> in_force s k [f] j.
Proof. intros C. exists [], f, []. split; [reflexivity|]. split; [exact C|]. intros f' j' []. Qed.

Lemma int_at_held w x s k z : held (running x) s k = Some (JInt z) -> 0 <= z <= int_max -> int_at w x s k = Ret z.
Proof.
  intros H R. unfold int_at. rewrite held_lookup, H. cbn [to_int]. rewrite small_wrap by exact R. reflexivity.
Qed.

Lemma react_carries w x s k t key text asked j e0 o :
  In (s, k, t) driving -> ci_eq key k = true -> held (running x) s k = Some j -> shape t j -> small j ->
  (j = JBool true \/ j = JBool false -> j = JBool (string_to_bool text)) ->
  react w x key text asked = (e0, Ret (Accepted, o)) -> in_force s k e0 j.
Proof.
  intros I E H S Sm B R. unfold react in R. rewrite ?(ci_replace _ _ _ E) in R.
  repeat (destruct I as [I|I]; [assert (Q : s = fst (fst (s, k, t)) /\ k = snd (fst (s, k, t)) /\ t = snd (s, k, t)) by auto; rewrite <- I in Q; cbn [fst snd] in Q;
    destruct Q as (-> & -> & ->); ci_in R; clear I|]); [..|destruct I].
  Local Ltac number S H Sm R z := destruct S as (z & ->); cbn [small] in Sm; unfold with_int in R; rewrite (int_at_held _ _ _ _ _ H Sm) in R.
  - number S H Sm R z. inversion R; subst. apply last_only. constructor.
  - number S H Sm R z. inversion R; subst. apply last_only. constructor.
  - number S H Sm R z. destruct (0 <? z) eqn:Lt; inversion R; subst; apply last_only; constructor; [apply Z.ltb_lt|apply Z.ltb_ge]; exact Lt.
  - number S H Sm R z. inversion R; subst. apply last_only. constructor.
  - number S H Sm R z. inversion R; subst. apply last_only. constructor.
  - number S H Sm R z. inversion R; subst. apply last_only. constructor.
  - destruct S as (z & ->). rewrite held_lookup, H in R. cbn [to_int] in R. rewrite small_wrap in R by exact Sm.
    unfold with_int in R. destruct (int_at w x "Internal" "WebsocketPongTimeout"); inversion R; subst. apply last_only. constructor.
  - destruct S as (b & ->). assert (Q : b = string_to_bool text) by (destruct b; [specialize (B (or_introl eq_refl))|specialize (B (or_intror eq_refl))]; congruence).
    inversion R; subst. apply last_only. constructor.
  - destruct S as (v & ->). unfold new_key in R. rewrite held_lookup, H in R.
    destruct (int_at w x "Security" "SecurityProfile") as [p|]; [|inversion R].
    destruct (p =? 0); [inversion R; subst; apply last_only; constructor|].
    destruct ((p =? 1) || (p =? 2)); [|inversion R; subst; apply last_only; constructor].
    destruct asked; inversion R; subst; eexists [], _, _; (split; [reflexivity|]; split; [constructor|]);
      intros f' j' F C; cbn in F; repeat (destruct F as [<-|F]; [inversion C|]); destruct F.
Qed.

Lemma react_idle w x s k t key text asked f j :
  In (s, k, t) driving -> ci_eq key k = false -> In f (fst (react w x key text asked)) -> ~ carries s k j f.
Proof.
  intros I E F C.
  assert (W : forall s0 k0 g, In f (fst (with_int w x s0 k0 g)) -> exists z, In f (g z)).
  { intros s0 k0 g H. unfold with_int in H. destruct (int_at w x s0 k0); [eauto|destruct H]. }
  unfold react in F.
  Local Ltac no E C H := inversion C; subst; congruence.
  repeat match type of F with
  | In _ (fst (if ci_eq key ?n then _ else _)) => let Q := fresh "Q" in destruct (ci_eq key n) eqn:Q
  end; try (apply W in F; destruct F as (z & F)); cbn [fst In] in F.
  - destruct F as [<-|[]]. inversion C; subst; congruence.
  - destruct F as [<-|[]]. inversion C; subst; congruence.
  - destruct (0 <? z); destruct F as [<-|[]]; inversion C; subst; congruence.
  - unfold new_key in F. destruct (lookup _ _ _) as [[| | | |t0| |]|]; try destruct F.
    assert (F' : In f [NewAuthorizationKey t0; Respond Accepted; Reconnect]).
    { destruct (int_at w x "Security" "SecurityProfile") as [p|]; [|cbn in F; cbn; tauto].
      destruct (p =? 0); [cbn in F; cbn; tauto|]. destruct ((p =? 1) || (p =? 2)); [|cbn in F; cbn; tauto].
      destruct asked; cbn in F; cbn; tauto. }
    cbn [In] in F'. destruct F' as [<-|[<-|[<-|[]]]]; inversion C; subst; congruence.
  - assert (F' : f = Disconnect \/ (exists p, f = SwitchProfile p) \/ exists st, f = Respond st).
    { unfold new_profile in F.
      repeat match type of F with context [match ?a with _ => _ end] => destruct a end; cbn [fst In app] in F;
        repeat (destruct F as [<-|F]; [eauto|]); try destruct F; eauto. }
    destruct F' as [->|[(p & ->)|(st & ->)]]; inversion C.
  - destruct F as [<-|[]]. inversion C; subst. rewrite ci_sym, (ci_replace _ "ConnectionTimeout"), ci_sym in E by (vm_compute; reflexivity). congruence.
  - destruct F as [<-|[]]. inversion C; subst; congruence.
  - destruct F as [<-|[]]. inversion C; subst; congruence.
  - destruct (lookup _ _ _) as [v|]; [|destruct F]. destruct (to_int w v) as [z|]; [|destruct F]. apply W in F. destruct F as (p & [<-|[]]). inversion C; subst; congruence.
  - destruct F as [<-|[]]. inversion C; subst; congruence.
  - destruct (supports x "PnC"); [|destruct F]. destruct (lookup _ _ _) as [[|[]| | | | |]|]; try destruct F. apply W in F. destruct F as (z & [<-|[]]). inversion C.
  - destruct (lookup _ _ _) as [[| | | |t0| |]|]; try destruct F. destruct (from_rfc3339 t0) as [d|]; [|destruct F].
    destruct (d <? now w); cbn in F; [destruct F|destruct F as [<-|[]]; inversion C].
  - destruct F.
Qed.

Lemma notify_idle w st key text s k f j : In f (notify w st key text) -> ~ carries s k j f.
Proof.
  unfold notify. intros F C. destruct st; try destruct F. destruct (existsb _ _); [destruct F as [<-|[]]; inversion C|].
  destruct (generic w); [destruct F as [<-|[]]; inversion C|destruct F].
Qed.

(** ** One change *)

Lemma change_steps w x key text asked x' e r : change w x key text asked = (x', e, r) ->
  (x' = x /\ e = []) \/
  exists v s0, get w x key = Ret v /\ tried key v /\ set w x key text = Ret (s0, x') /\
    match s0 with
    | Some Accepted => exists e0 r0, react w x' key text asked = (e0, r0) /\
        e = e0 ++ match r0 with Ret (s', _) => notify w s' key text | Throws _ => [] end
    | _ => e = []
    end.
Proof.
  unfold change. intros C.
  assert (Q : forall v, get w x key = Ret v -> tried key v ->
    match set w x key text with
    | Throws e => (x, [], Throws e)
    | Ret (s, x') =>
        match s with
        | Some Accepted =>
            match react w x' key text asked with
            | (e, Throws why) => (x', e, Throws why)
            | (e, Ret (s', open)) => (x', e ++ notify w s' key text, Ret (s', open))
            end
        | Some s' => (x', [] ++ notify w s' key text, Ret (s', true))
        | None => (x', [] ++ notify w Rejected key text, Ret (Rejected, true))
        end
    end = (x', e, r) ->
    (x' = x /\ e = []) \/ exists v s0, get w x key = Ret v /\ tried key v /\ set w x key text = Ret (s0, x') /\
    match s0 with
    | Some Accepted => exists e0 r0, react w x' key text asked = (e0, r0) /\
        e = e0 ++ match r0 with Ret (s', _) => notify w s' key text | Throws _ => [] end
    | _ => e = []
    end).
  { clear C. intros v G T H. destruct (set w x key text) as [[s0 x0]|]; [|inversion H; subst; auto]. right. exists v, s0.
    destruct s0 as [[]|]; try (inversion H; subst; auto; fail).
    destruct (react w x0 key text asked) as [e0 [[s' o']|why]] eqn:R; inversion H; subst.
    - split; [exact G|]. split; [exact T|]. split; [reflexivity|]. exists e0, (Ret (s', o')). split; [exact R|reflexivity].
    - split; [exact G|]. split; [exact T|]. split; [reflexivity|]. exists e, (Throws why). split; [exact R|rewrite app_nil_r; reflexivity]. }
  destruct (get w x key) as [v|]; [|inversion C; subst; auto].
  destruct (match v with Some _ => true | None => ci_eq key "AuthorizationKey" end) eqn:Th; [|inversion C; subst; auto].
  destruct (ci_ne key "AuthorizationKey") eqn:Ne.
  - destruct v as [v|]; [|inversion C; subst; auto]. destruct (kv_readonly v) eqn:Ro; [inversion C; subst; auto|].
    apply (Q (Some v)); auto. left. eauto.
  - apply (Q v); auto. right. apply ne_false. exact Ne.
Qed.

Lemma driving_writer s k t : In (s, k, t) driving -> exists wr, first_w k writers = Some wr /\ w_section wr = s /\ w_key wr = k /\ (w_present wr = true -> w_guard wr <> Always) /\
  match w_rule wr with RInt lo hi => 0 <= lo /\ hi = int_max /\ t = SInt None None | RAnyBool => t = SBool | RAuthorizationKey => t = SText None None | _ => False end.
Proof.
  intros I. repeat (destruct I as [I|I]; [assert (Q : s = fst (fst (s, k, t)) /\ k = snd (fst (s, k, t)) /\ t = snd (s, k, t)) by auto; rewrite <- I in Q; cbn [fst snd] in Q;
    destruct Q as (-> & -> & ->); clear I; eexists; split; [vm_compute; reflexivity|]; split; [reflexivity|]; split; [reflexivity|]; split; [discriminate|]; cbn [w_rule]; first [reflexivity|split; [discriminate|split; reflexivity]]|]).
  destruct I.
Qed.

Lemma driving_in s k t : In (s, k, t) driving -> (exists b, In (s, k, b) catalogue) /\ starts_ci "DefaultPriceText" k = false /\ s <> "Custom" /\ ci_eq k "SecurityProfile" = false.
Proof.
  intros I. repeat (destruct I as [I|I]; [assert (Q : s = fst (fst (s, k, t)) /\ k = snd (fst (s, k, t)) /\ t = snd (s, k, t)) by auto; rewrite <- I in Q; cbn [fst snd] in Q;
    destruct Q as (-> & -> & ->); clear I; (split; [exists true; apply in_catalogue; vm_compute; reflexivity|]; split; [vm_compute; reflexivity|]; split; [discriminate|vm_compute; reflexivity])|]).
  destruct I.
Qed.

Lemma driving_rule w x r t text j st :
  match r with RInt lo hi => 0 <= lo /\ hi = int_max /\ t = SInt None None | RAnyBool => t = SBool | RAuthorizationKey => t = SText None None | _ => False end ->
  apply_rule w x r text = Ret (Store j st) ->
  st = Accepted /\ shape t j /\ small j /\ (j = JBool true \/ j = JBool false -> j = JBool (string_to_bool text)).
Proof.
  intros H A. destruct r; try contradiction H; cbn [apply_rule] in A.
  - subst t. inversion A; subst. split; [reflexivity|]. split; [cbn; eauto|]. split; [exact Logic.I|auto].
  - destruct H as (L & -> & ->). destruct (is_positive_integer text) as [[[] z]|]; try discriminate A.
    destruct ((z <? lo) || (int_max <? z)) eqn:R; [discriminate A|]. inversion A; subst.
    apply orb_false_iff in R. destruct R as [R1 R2]. apply Z.ltb_ge in R1, R2.
    split; [reflexivity|]. split; [cbn; eauto|]. split; [cbn [small]; lia|]. intros [X|X]; discriminate X.
  - subst t. destruct (Nat.leb 8 (String.length text)); [|discriminate A]. inversion A; subst.
    split; [reflexivity|]. split; [cbn [shape]; eauto|]. split; [exact Logic.I|]. intros [X|X]; discriminate X.
Qed.

Lemma in_force_app s k e0 e j : in_force s k e0 j -> (forall f j', In f e -> ~ carries s k j' f) -> in_force s k (e0 ++ e) j.
Proof.
  intros (e1 & f & e2 & -> & C & N) H. exists e1, f, (e2 ++ e). split; [rewrite <- app_assoc; reflexivity|]. split; [exact C|].
  intros f' j' I. apply in_app_iff in I. destruct I as [I|I]; eauto.
Qed.

Lemma change_drives w x s k t key text asked x' e r :
  proper x -> no_shadow x -> In (s, k, t) driving -> change w x key text asked = (x', e, r) ->
  (exists j, in_force s k e j /\ held (running x') s k = Some j) \/
  ((forall f j, In f e -> ~ carries s k j f) /\ held (running x') s k = held (running x) s k).
Proof.
  intros P N D C.
  destruct (change_steps _ _ _ _ _ _ _ _ C) as [(-> & ->)|(v & s0 & G & T & S & R)]; [right; split; [intros f j []|reflexivity]|].
  destruct (driving_in _ _ _ D) as ((b & Cat) & Pk & Sc & Kp).
  destruct (change_all _ _ _ _ _ _ _ _ P N C) as (P' & _ & _).
  assert (Idle : (s0 = Some Accepted -> ci_eq key k = false) -> forall f j, In f e -> ~ carries s k j f).
  { intros H f j F. destruct s0 as [[]|]; try (subst e; destruct F; fail). destruct R as (e0 & r0 & Re & ->).
    apply in_app_iff in F. destruct F as [F|F].
    - apply (react_idle w x' s k t key text asked); auto. rewrite Re. exact F.
    - destruct r0 as [[s' o]|]; [apply (notify_idle _ _ _ _ _ _ _ _ F)|destruct F]. }
  pose proof (set_is w x key text) as Q. rewrite S in Q. inversion Q as [wr I E W|Pr W|Cu W|Se W|W].
  - destruct (facts wr I) as (tw & F). unfold as_set in W. destruct (write w x wr text) as [[st x0]|] eqn:Wr; [|discriminate W].
    inversion W; subst s0 x0; clear W.
    destruct (ci_eq key k) eqn:K.
    + destruct (driving_writer _ _ _ D) as (wr' & Fi & Ws & Wk & Ag & Ru).
      pose proof (one_writer _ _ _ _ _ F E K Fi) as X. subst wr'.
      destruct (write_cases _ _ _ _ _ _ _ F Wr) as [(j & M & St & A & _ & _ & ->)|[(-> & St)|(-> & Pt & Gt & Nh)]].
      * destruct (driving_rule w x _ t _ _ _ Ru A) as (-> & Sh & Sm & Bo). left. exists j.
        pose proof (got_put (running x) (w_section wr) (w_key wr) j) as (G1 & _).
        rewrite Ws, Wk in G1. rewrite Ws, Wk in *. split; [|exact G1].
        destruct R as (e0 & r0 & Re & ->).
        destruct (react_fine w (store w x s k j) key text asked P') as (e1 & o & Re').
        { rewrite (ci_replace _ _ _ K). exact Kp. }
        { intros H. rewrite (ci_replace _ _ _ K) in H.
          assert (Z : k = "AuthorizationKey" /\ s = "Security").
          { clear - D H. repeat (destruct D as [D|D]; [inversion D; subst; first [discriminate H|split; reflexivity]|]). destruct D. }
          destruct Z as (-> & ->). cbn [store running]. rewrite G1. discriminate. }
        { intros H. rewrite (ci_replace _ _ _ K) in H. exfalso. clear - D H.
          repeat (destruct D as [D|D]; [inversion D; subst; discriminate H|]). destruct D. }
        rewrite Re in Re'. assert (Z : e0 = e1 /\ r0 = Ret (Accepted, o)) by (inversion Re'; auto). destruct Z as (-> & ->).
        apply in_force_app; [|intros f j' Fn; exact (notify_idle _ _ _ _ _ _ _ _ Fn)].
        apply (react_carries w (store w x s k j) s k t key text asked j e1 o); auto.
      * right. split; [|reflexivity]. apply Idle. intros X. inversion X; subst. destruct St; discriminate.
      * right. split; [|reflexivity]. apply Idle. intros X. inversion X; subst. exfalso. exact (Ag Pt Gt).
    + right. split; [apply Idle; auto|].
      destruct (write_cases _ _ _ _ _ _ _ F Wr) as [(j & M & St & A & _ & _ & ->)|[(-> & St)|(-> & _)]]; try reflexivity.
      pose proof (got_put (running x) (w_section wr) (w_key wr) j) as (_ & G2 & _). apply G2. intros X. inversion X; subst.
      rewrite <- (wf_key _ _ F) in K. congruence.
  - assert (K : ci_eq key k = false) by (apply price_key; assumption). right. split; [apply Idle; auto|].
    destruct (write_price_cases w x key text P) as [(st & W' & _)|[(why & W')|(j & W' & Pf & Sec)]]; rewrite W' in W; cbn [as_set] in W; try discriminate W;
      inversion W; subst; try reflexivity.
    pose proof (got_put (running x) "CostAndPrice" "DefaultPriceText" j) as (_ & G2 & _). apply G2. intros X. inversion X; subst. vm_compute in Pk. discriminate Pk.
  - destruct (write_custom w x key text) as [st x0] eqn:Wc. cbn [as_set] in W. inversion W; subst s0 x0; clear W.
    destruct (write_custom_cases _ _ _ _ _ _ Wc) as [(-> & ->)|(-> & j & -> & H)].
    + right. split; [|reflexivity]. apply Idle. intros X. inversion X.
    + right. split; [apply Idle; intros _; exact (not_shadowed_by _ _ _ _ _ N Cat H)|].
      pose proof (got_put (running x) "Custom" key j) as (_ & G2 & _). apply G2. intros X. inversion X; subst. congruence.
  - subst x'. right. split; [|reflexivity]. apply Idle. intros _. destruct (ci_eq key k) eqn:K; [|reflexivity].
    rewrite (ci_replace _ _ _ K) in Se. congruence.
  - subst x'. right. split; [|reflexivity]. apply Idle. intros X. subst s0. congruence.
Qed.

Lemma changes_drive x e x' s k t : proper x -> no_shadow x -> In (s, k, t) driving -> changes x e x' ->
  proper x' /\ no_shadow x' /\
  ((exists j, in_force s k e j /\ held (running x') s k = Some j) \/
   ((forall f j, In f e -> ~ carries s k j f) /\ held (running x') s k = held (running x) s k)).
Proof.
  intros P N D C. induction C as [x|x e x1 w key text asked x2 e2 r C IH Ch].
  - split; [exact P|]. split; [exact N|]. right. split; [intros f j []|reflexivity].
  - destruct (IH P N) as (P1 & N1 & H). destruct (change_all _ _ _ _ _ _ _ _ P1 N1 Ch) as (P2 & N2 & _).
    split; [exact P2|]. split; [exact N2|].
    destruct (change_drives _ _ _ _ _ _ _ _ _ _ _ P1 N1 D Ch) as [(j & (a & f & b & -> & Cf & Nf) & Hj)|(Nf & Hj)].
    + left. exists j. split; [|exact Hj]. exists (e ++ a), f, b. split; [rewrite app_assoc; reflexivity|]. auto.
    + destruct H as [(j & If & Hj')|(Nf' & Hj')].
      * left. exists j. split; [apply in_force_app; assumption|congruence].
      * right. split; [|congruence]. intros f j F. apply in_app_iff in F. destruct F; eauto.
Qed.

(** ** Callbacks *)

Lemma react_no_callback w x key text asked f : In f (fst (react w x key text asked)) -> (forall k v, f <> Changed k v) /\ forall k v, f <> ChangedAny k v.
Proof.
  intros F.
  assert (G : match f with Changed _ _ | ChangedAny _ _ => False | _ => True end).
  { assert (W : forall s0 k0 g, (forall z, Forall (fun f => match f with Changed _ _ | ChangedAny _ _ => False | _ => True end) (g z)) ->
      Forall (fun f => match f with Changed _ _ | ChangedAny _ _ => False | _ => True end) (fst (with_int w x s0 k0 g))).
    { intros s0 k0 g H. unfold with_int. destruct (int_at w x s0 k0); [apply H|constructor]. }
    assert (Q : Forall (fun f => match f with Changed _ _ | ChangedAny _ _ => False | _ => True end) (fst (react w x key text asked))).
    { unfold react, new_key, new_profile. destruct asked; cbn [app];
      repeat match goal with
      | |- Forall _ (fst (with_int _ _ _ _ _)) => apply W; intros z; try destruct (0 <? z); repeat constructor
      | |- Forall _ ?l => match l with context [match ?a with _ => _ end] => destruct a end
      end; cbn [fst]; repeat constructor. }
    rewrite Forall_forall in Q. exact (Q _ F). }
  split; intros k v ->; exact G.
Qed.

Lemma callbacks_of_change w x key text asked x' e r : change w x key text asked = (x', e, r) ->
  ((exists x0, forall f, In f e -> In f (fst (react w x0 key text asked))) /\ forall o, r <> Ret (Accepted, o)) \/
  exists e0 x0 s o, e = fst (react w x0 key text asked) ++ notify w s key text /\ r = Ret (s, o) /\ e0 = fst (react w x0 key text asked).
Proof.
  unfold change. intros C.
  assert (Q : match set w x key text with
    | Throws e => (x, [], Throws e)
    | Ret (s, x') =>
        match s with
        | Some Accepted =>
            match react w x' key text asked with
            | (e, Throws why) => (x', e, Throws why)
            | (e, Ret (s', open)) => (x', e ++ notify w s' key text, Ret (s', open))
            end
        | Some s' => (x', [] ++ notify w s' key text, Ret (s', true))
        | None => (x', [] ++ notify w Rejected key text, Ret (Rejected, true))
        end
    end = (x', e, r) -> _) by (intros H; refine (_ : ((exists x0, forall f, In f e -> In f (fst (react w x0 key text asked))) /\ forall o, r <> Ret (Accepted, o)) \/
       exists e0 x0 s o, e = fst (react w x0 key text asked) ++ notify w s key text /\ r = Ret (s, o) /\ e0 = fst (react w x0 key text asked));
    destruct (set w x key text) as [[s0 x0]|];
      [|inversion H; subst; left; split; [first [exists x|exists x']; intros f []|discriminate]];
    destruct s0 as [[]|];
      [|inversion H; subst; left; split; [first [exists x|exists x']; intros f []|discriminate] ..];
    destruct (react w x0 key text asked) as [e1 [[s' o']|why]] eqn:R; inversion H; subst;
      [right; exists e1, x', s', o'; rewrite R; auto|left; split; [exists x'; rewrite R; auto|discriminate]]).
  destruct (get w x key) as [v|]; [|inversion C; subst; left; split; [first [exists x|exists x']; intros f []|discriminate]].
  destruct (match v with Some _ => true | None => ci_eq key "AuthorizationKey" end); [|inversion C; subst; left; split; [first [exists x|exists x']; intros f []|discriminate]].
  destruct (ci_ne key "AuthorizationKey").
  - destruct v as [v|]; [|inversion C; subst; left; split; [first [exists x|exists x']; intros f []|discriminate]].
    destruct (kv_readonly v); [inversion C; subst; left; split; [first [exists x|exists x']; intros f []|discriminate]|]. exact (Q C).
  - exact (Q C).
Qed.
