(** Proofs about the monitoring updater: periodic reports. *)
From Coq Require Import ZArith List Bool Lia.
From Verif Require Import MonModel MonSpec MonSpec2 MonProofs MonProofs2 MonProofs3 MonProofs4.
Import ListNotations.
Local Open Scope Z_scope.

(** The time of the last report, or of the first pass. *)
Definition last_time (gap : Z) (l : list Z) : option Z :=
  match l with [] => None | t :: q => Some (last (spaced gap t q) t) end.
Definition keeps_time (m : monitor) (var : Z) (l : list Z) (s : life) : Prop :=
  match last_time (1000 * n_value m) l with
  | None => s = Idle
  | Some t => s = Timing (T m var t 0 [])
  end.
Lemma last_app : forall (l : list Z) x d, last (l ++ [x]) d = x.
Proof. induction l as [|a l IH]; intros x d; [reflexivity|]. cbn [app]. change (last (a :: l ++ [x]) d) with (match l ++ [x] with [] => a | _ => last (l ++ [x]) d end). destruct (l ++ [x]) eqn:E; [destruct l; discriminate|]. rewrite <- E. apply IH. Qed.
Lemma last_cons : forall (l : list Z) x d, last (x :: l) d = last l x.
Proof.
  induction l as [|a l IH]; intros x d; [reflexivity|].
  change (last (x :: a :: l) d) with (last (a :: l) d). rewrite IH, IH. reflexivity.
Qed.
Lemma spaced_app : forall gap l t x, spaced gap t (l ++ [x]) =
  spaced gap t l ++ (if last (spaced gap t l) t + gap <? x then [x] else []).
Proof.
  intros gap l. induction l as [|a l IH]; intros t x; cbn [app spaced].
  - cbn [last]. destruct (t + gap <? x); reflexivity.
  - destruct (t + gap <? a).
    + rewrite IH. rewrite last_cons. reflexivity.
    + apply IH.
Qed.
Lemma tick_step : forall m var o l s, n_type m = Periodic -> 0 <= n_value m -> tick m var o -> keeps_time m var l s ->
  exists s1, life_step (n_id m) s o =
    (s1, match o, last_time (1000 * n_value m) l with
         | OTimer v, Some t => if t + 1000 * n_value m <? v_steady v
                               then [Notice [Rep var (v_value v var) EPeriodic (n_conf m) None]] else []
         | _, _ => []
         end) /\ keeps_time m var (l ++ steady o) s1.
Proof.
  intros m var o l s NT NV TK KT. destruct o as [ms x d actual w a b|k x d w b|v|v]; cbn [tick steady] in *.
  - exists s. rewrite app_nil_r. split; auto. cbn [life_step]. destruct actual; auto.
    assert (look_all (n_id m) ms x d w a b s = (s, [])) as ->; [|reflexivity].
    clear KT. revert s. induction ms as [|k q IH]; intros s; [reflexivity|]. cbn [look_all].
    assert (n_id k <> n_id m) by (apply TK; left; auto). apply Z.eqb_neq in H. rewrite H, IH; [reflexivity|]. intros; apply TK; right; auto.
  - exists s. rewrite app_nil_r. split; auto. cbn [life_step]. apply Z.eqb_neq in TK. rewrite TK. reflexivity.
  - destruct TK as ((On1&On2&On3)&C&V). cbn [life_step]. rewrite On1. unfold keeps_time in *.
    destruct (last_time (1000 * n_value m) l) as [t|] eqn:LT.
    + subst s. cbn [appear]. rewrite C. cbn [pass]. unfold pass_timed. cbn [t_mon t_var t_last t_next t_queue]. rewrite NT, On2, Z.gtb_ltb.
      destruct l as [|t0 q]; [discriminate|]. assert (LT2 : last (spaced (1000 * n_value m) t0 q) t0 = t) by (unfold last_time in LT; congruence). clear LT. rename LT2 into LT. cbn [app last_time]. rewrite spaced_app, LT.
      destruct (t + 1000 * n_value m <? v_steady v).
      * destruct (v_value v var) as [y|] eqn:VV; [|congruence]. cbn [app notice]. eexists. split.
        -- unfold timed_report. cbn [t_mon t_var]. rewrite NT. reflexivity.
        -- rewrite last_app. reflexivity.
      * cbn [notice]. eexists. split; [reflexivity|]. rewrite app_nil_r, LT. reflexivity.
    + subst s. destruct l; [|discriminate]. unfold appear. rewrite C. cbn [fst snd]. rewrite NT. cbn [pass]. unfold pass_timed.
      cbn [t_mon t_var t_last t_next t_queue]. rewrite NT, On2, Z.gtb_ltb.
      assert (v_steady v + 1000 * n_value m <? v_steady v = false) as -> by (apply Z.ltb_ge; lia).
      cbn [notice app last_time spaced last]. eexists. split; reflexivity.
  - contradiction.
Qed.
Lemma tick_run : forall m var h l s, n_type m = Periodic -> 0 <= n_value m -> Forall (tick m var) h -> keeps_time m var l s ->
  keeps_time m var (l ++ ticks h) (fst (life_run (n_id m) s h)).
Proof.
  intros m var h. induction h as [|o h IH]; intros l s NT NV F K; [cbn; rewrite app_nil_r; auto|].
  inversion F as [|? ? F1 F2]; subst. destruct (tick_step m var o l s NT NV F1 K) as (s1&E&K1).
  cbn [life_run]. rewrite E. specialize (IH _ s1 NT NV F2 K1). unfold ticks in *. cbn [flat_map]. rewrite app_assoc.
  destruct (life_run (n_id m) s1 h) as (s2&b). exact IH.
Qed.
Lemma periodic_reports : forall m var h v, n_type m = Periodic -> 0 <= n_value m -> Forall (tick m var) (h ++ [OTimer v]) ->
  snd (life_run (n_id m) Idle (h ++ [OTimer v])) = snd (life_run (n_id m) Idle h) ++
    match ticks h with
    | [] => []
    | t0 :: q => if last (spaced (1000 * n_value m) t0 q) t0 + 1000 * n_value m <? v_steady v
                 then [Notice [Rep var (v_value v var) EPeriodic (n_conf m) None]] else []
    end.
Proof.
  intros m var h v NT NV F. apply Forall_app in F. destruct F as (F1&F2). inversion F2 as [|? ? F3 _]; subst.
  rewrite life_run_app. cbn [snd]. f_equal.
  pose proof (tick_run m var h [] Idle NT NV F1 eq_refl) as K. cbn [app] in K.
  destruct (tick_step m var (OTimer v) (ticks h) _ NT NV F3 K) as (s1&E&_). cbn [life_run]. rewrite E. cbn [snd].
  rewrite app_nil_r. destruct (ticks h); reflexivity.
Qed.
