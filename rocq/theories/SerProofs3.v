(** Proofs about the conversions to and from JSON: writing, and what is written is read. *)
From Coq Require Import String ZArith List Bool Lia.
From Verif Require Import StrModel StrProofs JsonModel JsonProofs EnumModel EnumProperties DtModel DtSpec DtProofs SerModel SerTables SerSpec SerProofs SerProofs2.
Import ListNotations.
Local Open Scope string_scope.
Local Open Scope list_scope.
Local Open Scope Z_scope.

Section Writing.
Variable F : floats.
Definition whow_of (w : write) : how := match w with WReq _ _ h | WOpt _ _ _ h => h end.
Definition wenv (ms : list (string * bool * ty)) (vs : list (option value)) := combine (map name ms) (combine (map (fun m => to_json (snd m)) ms) vs).
Lemma wmatch_shape : forall w m, wmatch w m = true -> wkey w = name m /\ written (snd m) (whow_of w) = true /\
  w = if snd (fst m) then WOpt (name m) (name m) (name m) (whow_of w) else WReq (name m) (name m) (whow_of w).
Proof.
  intros w [[n o] u] H. cbn in H. destruct w as [k x h|g k x h]; rewrite !andb_true_iff, !String.eqb_eq in H.
  - destruct H as [[[-> ->] O] R]. apply negb_true_iff in O. subst o. cbn. auto.
  - destruct H as [[[[-> ->] ->] O] R]. subst o. cbn. auto.
Qed.
Lemma writes_run : forall ms vs (G : json -> Prop) ws, NoDup (map name ms) -> NoDup (map wkey ws) ->
  (forall w, In w ws -> exists m ov, In (m, ov) (combine ms vs) /\ wmatch w m = true /\
     match ov with Some v => exists j, put (whow_of w) (to_json (snd m)) v = Some j /\ G j | None => snd (fst m) = true end) ->
  forall o, increasing (map fst o) -> Forall (fun kv => G (snd kv)) o -> (forall w, In w ws -> obj_get (wkey w) o = None) ->
  exists o', run_writes ws (wenv ms vs) o = Some o' /\ increasing (map fst o') /\ Forall (fun kv => G (snd kv)) o' /\
    (forall k, ~ In k (map wkey ws) -> obj_get k o' = obj_get k o) /\
    (forall w m ov, In w ws -> In (m, ov) (combine ms vs) -> wmatch w m = true ->
       obj_get (name m) o' = match ov with Some v => put (whow_of w) (to_json (snd m)) v | None => None end).
Proof.
  intros ms vs G ws N. induction ws as [|w ws IH]; intros Nw M o Io Go Ao.
  - exists o. cbn. repeat split; auto. intros w m ov [].
  - cbn [map] in Nw. inversion Nw as [|? ? Nx Nq]; subst. destruct (M w (or_introl eq_refl)) as (m&ov&Im&Wm&Pv). destruct (wmatch_shape w m Wm) as (K&H&Sh).
    specialize (IH Nq (fun w' I => M w' (or_intror I))). pose proof (Ao w (or_introl eq_refl)) as Aw. rewrite K in Aw, Nx.
    assert (E : run_writes (w :: ws) (wenv ms vs) o =
      match ov with
      | Some v => match put (whow_of w) (to_json (snd m)) v with Some j => run_writes ws (wenv ms vs) (obj_set (name m) j o) | None => None end
      | None => run_writes ws (wenv ms vs) o
      end).
    { rewrite Sh at 1. pose proof (env_ok to_json ms vs m ov N Im) as En. unfold wenv at 1. destruct (snd (fst m)) eqn:Os; cbn [run_writes].
      - rewrite En. destruct ov; reflexivity.
      - rewrite En. destruct ov as [v|]; [|discriminate Pv]. rewrite Aw. reflexivity. }
    assert (Same : forall m' ov', In (m', ov') (combine ms vs) -> wmatch w m' = true -> m' = m /\ ov' = ov).
    { intros m' ov' I' R'. destruct (wmatch_shape w m' R') as (K'&_). rewrite K in K'. clear - N Im I' K'. revert vs Im I'. induction ms as [|a ms IHm]; intros [|b vs] Im I'; try destruct Im. 
      - cbn in N. inversion N as [|? ? A B]; subst. injection H as -> ->. destruct I' as [E|I']; [injection E as <- <-; auto|]. exfalso. apply A. rewrite K'. apply in_map. exact (in_combine_l _ _ _ _ I').
      - cbn in N. inversion N as [|? ? A B]; subst. destruct I' as [E|I']; [injection E as -> ->; exfalso; apply A; rewrite <- K'; apply in_map; exact (in_combine_l _ _ _ _ H)|]. exact (IHm B vs H I'). }
    assert (Diff : forall w', In w' ws -> wkey w' <> name m) by (intros w' I' E'; apply Nx; rewrite <- E'; apply in_map, I').
    rewrite E. clear E. destruct ov as [v|].
    + destruct Pv as (j&Pj&Gj). rewrite Pj. destruct (IH (obj_set (name m) j o)) as (o'&R&I1&I2&I3&I4); [apply set_increasing, Io|apply set_values; assumption| |].
      { intros w' I'. rewrite get_set_other by exact (Diff w' I'). apply Ao. right. exact I'. }
      exists o'. split; [exact R|]. split; [exact I1|]. split; [exact I2|]. split.
      * intros k Nk. cbn in Nk. rewrite I3 by tauto. apply get_set_other. intros ->. apply Nk. left. exact K.
      * intros w' m' ov' [<-|Iw] Im' W'; [|exact (I4 w' m' ov' Iw Im' W')]. destruct (Same m' ov' Im' W') as [-> ->]. rewrite I3 by exact Nx. rewrite get_set. symmetry. exact Pj.
    + destruct (IH o Io Go (fun w' I' => Ao w' (or_intror I'))) as (o'&R&I1&I2&I3&I4). exists o'. split; [exact R|]. split; [exact I1|]. split; [exact I2|]. split.
      * intros k Nk. cbn in Nk. apply I3. tauto.
      * intros w' m' ov' [<-|Iw] Im' W'; [|exact (I4 w' m' ov' Iw Im' W')]. destruct (Same m' ov' Im' W') as [-> ->]. rewrite I3 by exact Nx. exact Aw.
Qed.
Definition Q (t : ty) : Prop := sound t = true -> forall h, written t h = true -> forall v, typed F t v ->
  exists j, put h (to_json t) v = Some j /\ represents F true t (to_milliseconds v) j /\ wf j.
Lemma written_direct : forall t, direct t = true -> written t Plain = true.
Proof. intros [] H; cbn in *; congruence. Qed.
Lemma writing : forall t, Q t.
Proof.
  apply ty_ind'; unfold Q.
  - intros m _ h W v T. destruct h; try discriminate W. inversion T; subst. eexists. split; [reflexivity|]. split; constructor. assumption.
  - intros _ h W v T. destruct h; try discriminate W. inversion T; subst. eexists. split; [reflexivity|]. split; constructor.
  - intros _ h W v T. destruct h; try discriminate W. inversion T; subst. eexists. split; [reflexivity|]. split; constructor; [assumption|].
    unfold int64_ok. apply andb_true_iff. change (2 ^ 31) with 2147483648 in *. split; apply Z.leb_le; lia.
  - intros _ h W v T. destruct h; try discriminate W. inversion T; subst. eexists. split; [reflexivity|]. split; constructor; assumption.
  - intros _ h W v T. destruct h; try discriminate W. inversion T; subst. eexists. split; [reflexivity|]. split; constructor. apply rfc3339_writes. assumption.
  - intros _ h W v T. destruct h; try discriminate W. inversion T; subst. eexists. split; [reflexivity|]. split; [constructor|assumption].
  - intros e G h W v T. destruct h as [| |e'| | |]; try discriminate W. cbn [written] in W. apply enum_eqb_eq in W. subst e'. inversion T as [| | | | | |e' x I| |]; subst. cbn [put].
    cbn [sound] in G. unfold good in G. rewrite !andb_true_iff in G. destruct G as [[[[A _] _] _] _]. rewrite forallb_forall in A. specialize (A x I). destruct (to_wire e x) as [s|] eqn:E; [|discriminate A].
    exists (JStr s). split; [reflexivity|]. split; constructor; assumption.
  - intros u IH G h W v T. cbn [sound] in G. specialize (IH G). inversion T as [| | | | | | |u' l Fl|]; subst.
    assert (V : exists g, put h (to_json (Vec u)) (VVec l) = option_map JArr (all_some (map g l)) /\ (forall x, typed F u x -> exists j, g x = Some j /\ represents F true u (to_milliseconds x) j /\ wf j)).
    { destruct h as [| |e'| |e'|]; try (destruct u; discriminate W).
      - exists (to_json u). split; [reflexivity|]. assert (D : direct u = true) by (destruct u; exact W || discriminate W). exact (IH Plain (written_direct u D)).
      - exists (to_json u). split; [reflexivity|]. assert (D : direct u = true) by (destruct u; exact W || discriminate W). exact (IH Plain (written_direct u D)).
      - destruct u as [| | | | | |e| |]; try discriminate W. assert (Re : written (Enm e) (Conv e') = true) by exact W. cbn [written] in W. apply enum_eqb_eq in W. subst e'. eexists. split; [reflexivity|]. intros x Tx.
        destruct (IH (Conv e) Re x Tx) as (j&Pj&R). exists j. split; [|exact R]. inversion Tx; subst. exact Pj. }
    destruct V as (g&->&Gg). assert (L : exists js, all_some (map g l) = Some js /\ Forall2 (represents F true u) (map to_milliseconds l) js /\ Forall wf js).
    { clear - Fl Gg. induction Fl as [|x l Tx Fl (js&E&R&Wf)]; [exists []; cbn; repeat split; constructor|]. destruct (Gg x Tx) as (j&Ej&Rj&Wj). exists (j :: js). cbn. rewrite Ej, E. repeat split; constructor; assumption. }
    destruct L as (js&->&R&Wf). exists (JArr js). split; [reflexivity|]. cbn [to_milliseconds]. split; constructor; assumption.
  - intros ms ws rs IH G h W v T. destruct h; try discriminate W. inversion T as [| | | | | | | |ms' ws' rs' vs Fo]; subst. cbn [sound] in G. rewrite !andb_true_iff in G. destruct G as [[[Nm Sm] [[Nw Mw] Cw]] _].
    apply nodup_iff in Nm. apply nodup_iff in Nw. rewrite forallb_forall in Sm, Mw, Cw. rewrite Forall_forall in IH. pose proof (forall2_length _ _ _ Fo) as L.
    assert (M : forall w, In w ws -> exists m, In m ms /\ wmatch w m = true) by (intros w Iw; apply existsb_exists; exact (Mw w Iw)).
    assert (C : forall m, In m ms -> exists w, In w ws /\ wmatch w m = true).
    { intros m Im. specialize (Cw m Im). apply mem_in in Cw. apply in_map_iff in Cw as (w&K&Iw). exists w. split; [exact Iw|]. destruct (M w Iw) as (m'&Im'&Wm).
      destruct (wmatch_shape w m' Wm) as (K'&_). rewrite (nodup_name ms m m' Nm Im Im'); [exact Wm|congruence]. }
    assert (Wr : forall w m v, In m ms -> wmatch w m = true -> typed F (snd m) v -> exists j, put (whow_of w) (to_json (snd m)) v = Some j /\ represents F true (snd m) (to_milliseconds v) j /\ wf j).
    { intros w m v Im Wm Tv. destruct (wmatch_shape w m Wm) as (_&H&_). exact (IH m Im (Sm m Im) _ H v Tv). }
    destruct (writes_run ms vs wf ws Nm Nw) with (o := @nil (string * json)) as (o&R&I1&I2&I3&I4).
    { intros w Iw. destruct (M w Iw) as (m&Im&Wm). destruct (in_combine ms vs m L Im) as (ov&I). exists m, ov. split; [exact I|]. split; [exact Wm|].
      pose proof (forall2_in _ _ _ _ _ Fo I) as X. cbv beta in X. destruct X as [(x&->&Tx)|[-> O]]; [|exact O]. destruct (Wr w m x Im Wm Tx) as (j&A&_&B). eauto. }
    { exact Logic.I. } { constructor. } { reflexivity. }
    exists (JObj o). split; [cbn [put to_json]; unfold wenv in R; change (fun m : string * bool * ty => fst (fst m)) with name; rewrite R; reflexivity|]. split; [|constructor; assumption].
    cbn [to_milliseconds]. constructor.
    + apply forall2_combine; [rewrite map_length; exact L|]. intros m ov' I. apply combine_map_r in I as (ov&I&->). assert (Im : In m ms) by exact (in_combine_l _ _ _ _ I). destruct (C m Im) as (w&Iw&Wm).
      specialize (I4 w m ov Iw I Wm). pose proof (forall2_in _ _ _ _ _ Fo I) as X. cbv beta in X. fold (name m). destruct X as [(x&->&Tx)|[-> O]].
      * destruct (Wr w m x Im Wm Tx) as (j&A&B&_). left. exists (to_milliseconds x), j. split; [reflexivity|]. split; [apply get_has; congruence|exact B].
      * right. split; [reflexivity|]. split; [exact O|]. apply get_lacks. exact I4.
    + apply increasing_nodup, I1.
    + intros _ k Ik. destruct (in_dec string_dec k (map wkey ws)) as [Iw|Iw].
      * apply in_map_iff in Iw as (w&<-&Iw). destruct (M w Iw) as (m&Im&Wm). destruct (wmatch_shape w m Wm) as (->&_). apply in_map_iff. exists m. split; [reflexivity|exact Im].
      * exfalso. apply get_keys in Ik. apply Ik. rewrite I3 by exact Iw. reflexivity.
Qed.

(** ** Proper forms are accepted *)
Lemma represents_accepts : forall s t v j, represents F s t v j -> accepts F t v j.
Proof.
  intros s. apply (ty_ind' (fun t => forall v j, represents F s t v j -> accepts F t v j)).
  - intros m v j R. inversion R; subst. constructor. assumption.
  - intros v j R. inversion R; subst. constructor.
  - intros v j R. inversion R; subst. constructor; [assumption|]. exists 0. ring.
  - intros v j R. inversion R; subst; constructor.
  - intros v j R. inversion R; subst. constructor. apply rfc3339_reads. assumption.
  - intros v j R. inversion R; subst. constructor.
  - intros e v j R. inversion R; subst. constructor; assumption.
  - intros u IH v j R. inversion R as [| | | | | | | |u' l js Fo|]; subst. apply A_vec with (js := js); [reflexivity|]. clear R. induction Fo; constructor; auto.
  - intros ms ws rs IH v j R. inversion R as [| | | | | | | | |ms' ws' rs' vs o Fo N S]; subst. constructor. rewrite Forall_forall in IH. apply forall2_combine; [exact (forall2_length _ _ _ Fo)|].
    intros m ov I. pose proof (forall2_in _ _ _ _ _ Fo I) as X. cbv beta in X. destruct X as [(x&y&->&H&Rx)|(->&O&H)].
    + left. exists x, y. split; [reflexivity|]. split; [exists o; auto|]. apply IH; [exact (in_combine_l _ _ _ _ I)|exact Rx].
    + right. right. split; [reflexivity|]. split; [exact O|]. intros x (o'&E&Hx). injection E as <-. apply H. apply get_keys. apply get_has in Hx. rewrite Hx. discriminate.
Qed.
End Writing.
