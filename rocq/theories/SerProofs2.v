(** Proofs about the conversions to and from JSON: reading and writing. *)
From Coq Require Import String ZArith List Bool Lia.
From Verif Require Import StrModel StrProofs JsonModel JsonProofs EnumModel EnumProperties DtModel DtSpec DtProofs SerModel SerTables SerSpec SerProofs.
Import ListNotations.
Local Open Scope string_scope.
Local Open Scope list_scope.
Local Open Scope Z_scope.

Definition ty_ind' (P : ty -> Prop) (Hs : forall m, P (Str m)) (Hf : P Flag) (Hi : P Int) (Hfl : P Float) (Ht : P Time) (Ha : P Any)
  (He : forall e, P (Enm e)) (Hv : forall u, P u -> P (Vec u)) (Hst : forall ms ws rs, Forall (fun m => P (snd m)) ms -> P (Struct ms ws rs)) : forall t, P t :=
  fix go t := match t with
  | Str m => Hs m | Flag => Hf | Int => Hi | Float => Hfl | Time => Ht | Any => Ha | Enm e => He e
  | Vec u => Hv u (go u)
  | Struct ms ws rs => Hst ms ws rs ((fix each l : Forall (fun m => P (snd m)) l := match l with [] => Forall_nil _ | m :: q => Forall_cons m (go (snd m)) (each q) end) ms)
  end.
Lemma wire_iff : forall e, good (fun _ => false) e = true -> forall x s, of_wire e s = Some x <-> In x (e_decl e) /\ to_wire e x = Some s.
Proof.
  intros e G x s. unfold good in G. rewrite !andb_true_iff in G. destruct G as [[[[A B] C] D] E]. rewrite forallb_forall in A, B. split.
  - intros O. assert (I : exists p, In p (e_in e) /\ fst p = s).
    { unfold of_wire in O. destruct (find _ (e_in e)) as [p|] eqn:Fd; [|discriminate]. apply find_fst in Fd. eauto. }
    destruct I as (p&I&<-). specialize (B p I). rewrite O in B. apply andb_true_iff in B as [M T]. apply mem_in in M. apply is_iff in T. auto.
  - intros [I T]. specialize (A x I). rewrite T in A. rewrite orb_false_r in A. apply is_iff in A. exact A.
Qed.
Lemma fits_iff : forall m s, fits m s = true <-> short m s.
Proof.
  intros [n|] s; unfold fits, short; [rewrite Z.leb_le; split; [intros H k E; injection E as <-; exact H|intros H; apply H; reflexivity]|]. split; [discriminate|reflexivity].
Qed.
Lemma wrap_iff : forall z y, wrap32 z = y <-> - 2 ^ 31 <= y < 2 ^ 31 /\ exists k, y = z + k * 2 ^ 32.
Proof.
  intros z y. unfold wrap32. change (2 ^ 31) with 2147483648. change (2 ^ 32) with 4294967296. split.
  - intros <-. pose proof (Z.mod_pos_bound (z + 2147483648) 4294967296 ltac:(lia)). split; [lia|]. exists (- ((z + 2147483648) / 4294967296)).
    pose proof (Z.div_mod (z + 2147483648) 4294967296 ltac:(lia)). lia.
  - intros [B [k ->]]. replace (z + 2147483648) with (z + k * 4294967296 + 2147483648 + (- k) * 4294967296) by ring. rewrite Z.mod_add by discriminate. rewrite Z.mod_small by lia. ring.
Qed.

(** ** Reading *)
Section Reading.
Variable F : floats.
Definition element (t : ty) : json -> option value := match t with Vec u => from_json F u | _ => fun _ => None end.
Definition renv (ms : list (string * bool * ty)) := map (fun m => (name m, (from_json F (snd m), element (snd m)))) ms.
(** What a statement does with what it finds. *)
Definition rhow_of (r : read) : how := match r with RReq _ _ h | ROpt _ _ _ h => h end.
Definition ropt (r : read) : bool := match r with RReq _ _ _ => false | ROpt _ _ _ _ => true end.
Lemma rmatch_shape : forall ms r m, rmatch ms r m = true ->
  rkey r = name m /\ ropt r = snd (fst m) /\ rhow ms (name m) (snd m) (rhow_of r) = true /\
  r = if snd (fst m) then ROpt (name m) (name m) (name m) (rhow_of r) else RReq (name m) (name m) (rhow_of r).
Proof.
  intros ms r [[n o] u] H. cbn in H. destruct r as [k x h|g k x h]; rewrite !andb_true_iff, !String.eqb_eq in H.
  - destruct H as [[[-> ->] O] R]. apply negb_true_iff in O. subst o. cbn. auto.
  - destruct H as [[[[-> ->] ->] O] R]. subst o. cbn. auto.
Qed.
Lemma reads_run : forall ms rs j, NoDup (map name ms) -> NoDup (map rkey rs) -> (forall r, In r rs -> exists m, In m ms /\ rmatch ms r m = true) -> forall set,
  match run_reads rs (renv ms) j set with
  | Some set' =>
      (forall k, ~ In k (map rkey rs) -> assoc k set' = assoc k set) /\
      (forall r m, In r rs -> In m ms -> rmatch ms r m = true ->
         match at_key (name m) j with
         | Some x => exists v, take (rhow_of r) (from_json F (snd m)) (element (snd m)) x = Some v /\ assoc (name m) set' = Some v
         | None => snd (fst m) = true /\ assoc (name m) set' = assoc (name m) set
         end)
  | None => exists r m, In r rs /\ In m ms /\ rmatch ms r m = true /\
         match at_key (name m) j with
         | Some x => take (rhow_of r) (from_json F (snd m)) (element (snd m)) x = None
         | None => snd (fst m) = false
         end
  end.
Proof.
  intros ms rs j N. induction rs as [|r rs IH]; intros Nr M set.
  - cbn. split; [reflexivity|]. intros r m [].
  - cbn [map] in Nr. inversion Nr as [|? ? Nx Nq]; subst. destruct (M r (or_introl eq_refl)) as (m&Im&Rm). destruct (rmatch_shape ms r m Rm) as (K&O&H&Sh).
    specialize (IH Nq (fun r' I => M r' (or_intror I))).
    assert (E : run_reads (r :: rs) (renv ms) j set =
      match at_key (name m) j with
      | Some x => match take (rhow_of r) (from_json F (snd m)) (element (snd m)) x with Some v => run_reads rs (renv ms) j ((name m, v) :: set) | None => None end
      | None => if snd (fst m) then run_reads rs (renv ms) j set else None
      end).
    { rewrite Sh at 1. unfold renv at 1 2 3. destruct (snd (fst m)) eqn:Os; cbn [run_reads]; rewrite (env_read (fun u => (from_json F u, element u)) ms m N Im); destruct (at_key (name m) j); reflexivity. }
    rewrite E. clear E. rewrite K in Nx.
    assert (Same : forall m', In m' ms -> rmatch ms r m' = true -> m' = m).
    { intros m' I' R'. destruct (rmatch_shape ms r m' R') as (K'&_). rewrite K in K'. clear - N Im I' K'. induction ms as [|a ms IH]; [destruct Im|]. cbn in N. inversion N as [|? ? A B]; subst.
      destruct Im as [->|Im], I' as [->|I']; try reflexivity; [exfalso; apply A; rewrite K'; apply in_map, I'|exfalso; apply A; rewrite <- K'; apply in_map, Im|apply IH; assumption]. }
    assert (Diff : forall r' m', In r' rs -> rmatch ms r' m' = true -> name m' <> name m).
    { intros r' m' I' R' E. destruct (rmatch_shape ms r' m' R') as (K'&_). apply Nx. rewrite <- E, <- K'. apply in_map, I'. }
    destruct (at_key (name m) j) as [x|] eqn:At.
    + destruct (take _ _ _ x) as [v|] eqn:Tk; [|exists r, m; rewrite At; repeat split; try assumption; left; reflexivity].
      specialize (IH ((name m, v) :: set)). destruct (run_reads rs (renv ms) j ((name m, v) :: set)) as [set'|].
      * destruct IH as [I1 I2]. split.
        -- intros k Nk. cbn in Nk. rewrite I1 by tauto. cbn. destruct (String.eqb_spec k (name m)); [exfalso; apply Nk; left; congruence|reflexivity].
        -- intros r' m' Ir Im' R'. destruct Ir as [<-|Ir].
           ++ rewrite (Same m' Im' R'), At. exists v. split; [exact Tk|]. rewrite I1 by exact Nx. cbn. rewrite String.eqb_refl. reflexivity.
           ++ specialize (I2 r' m' Ir Im' R'). destruct (at_key (name m') j); [exact I2|]. destruct I2 as [A B]. split; [exact A|]. rewrite B. cbn.
              destruct (String.eqb_spec (name m') (name m)); [exfalso; exact (Diff r' m' Ir R' e)|reflexivity].
      * destruct IH as (r'&m'&A&B&C). exists r', m'. split; [right; exact A|]. split; [exact B|exact C].
    + destruct (snd (fst m)) eqn:Os; [|exists r, m; rewrite At; repeat split; try assumption; left; reflexivity].
      specialize (IH set). destruct (run_reads rs (renv ms) j set) as [set'|].
      * destruct IH as [I1 I2]. split; [intros k Nk; cbn in Nk; apply I1; tauto|]. intros r' m' Ir Im' R'. destruct Ir as [<-|Ir]; [|exact (I2 r' m' Ir Im' R')].
        rewrite (Same m' Im' R'), At. split; [exact Os|]. apply I1. exact Nx.
      * destruct IH as (r'&m'&A&B&C). exists r', m'. split; [right; exact A|]. split; [exact B|exact C].
Qed.
Lemma elements_parts : forall j js, parts j js <-> js = elements j.
Proof. intros [| | | | |l|o] js; cbn; tauto. Qed.
Lemma vec_iff : forall (g : json -> option value) (A : value -> json -> Prop) j v, (forall x y, g x = Some y <-> A y x) ->
  (option_map VVec (all_some (map g (elements j))) = Some v <-> exists l js, v = VVec l /\ parts j js /\ Forall2 A l js).
Proof.
  intros g A j v G. split.
  - intros H. destruct (all_some _) as [l|] eqn:E; [|discriminate]. injection H as <-. apply all_some_iff in E. exists l, (elements j). split; [reflexivity|]. split; [apply elements_parts; reflexivity|].
    clear - E G. induction E; constructor; [apply G; assumption|assumption].
  - intros (l&js&->&P&E). apply elements_parts in P. subst js. replace (all_some (map g (elements j))) with (Some l); [reflexivity|]. symmetry. apply all_some_iff.
    clear - E G. induction E; constructor; [apply G; assumption|assumption].
Qed.
Lemma lax_iff : forall ms n, laxb ms n = true <-> lax ms n.
Proof.
  intros ms n. unfold laxb, lax. rewrite andb_true_iff, String.eqb_eq. cbn [v2_VariableAttribute]. unfold v2_VariableAttribute.
  match goal with |- context [list_eq_dec ?d ?a ?b] => destruct (list_eq_dec d a b) as [E|E] end; split; intros [A B]; split; auto; try discriminate B; contradiction.
Qed.
Definition P (t : ty) : Prop := sound t = true -> forall h, readable t h = true -> forall j v, take h (from_json F t) (element t) j = Some v <-> accepts F t v j.
Lemma text_iff : forall max j v, take Dumped (from_json F (Str max)) (element (Str max)) j = Some v <-> exists s, text_of j s /\ v = VStr s /\ accepts F (Str max) v (JStr s).
Proof.
  intros max j v.
  assert (T : exists s0, (forall s, text_of j s <-> s = s0) /\ take Dumped (from_json F (Str max)) (element (Str max)) j = from_json F (Str max) (JStr s0)).
  { destruct j as [|[|]|z|x|x|l|o]; eexists; (split; [intros s; cbn; reflexivity|reflexivity]). }
  destruct T as (s0&T1&->). cbn [from_json]. split.
  - destruct (fits max s0) eqn:Fi; [|discriminate]. intros H. injection H as <-. exists s0. split; [apply T1; reflexivity|]. split; [reflexivity|]. constructor. apply fits_iff, Fi.
  - intros (s&Tx&->&A). apply T1 in Tx. subst s. inversion A; subst. match goal with X : short _ _ |- _ => apply fits_iff in X; rewrite X end. reflexivity.
Qed.
Lemma readable_direct : forall t, direct t = true -> readable t Plain = true.
Proof. intros [] H; cbn in *; congruence. Qed.
Lemma nodup_name : forall ms m m', NoDup (map name ms) -> In m ms -> In m' ms -> name m = name m' -> m = m'.
Proof.
  induction ms as [|a ms IH]; intros m m' N I I' K; [destruct I|]. cbn in N. inversion N as [|? ? A B]; subst.
  destruct I as [->|I], I' as [->|I']; try reflexivity; [exfalso; apply A; rewrite K; apply in_map, I'|exfalso; apply A; rewrite <- K; apply in_map, I|apply IH; assumption].
Qed.
Lemma reading : forall t, P t.
Proof.
  apply ty_ind'; unfold P.
  - intros m _ h R j v. destruct h; try discriminate R. cbn [take from_json]. split.
    + destruct j; try discriminate. destruct (fits m s) eqn:Fi; [|discriminate]. intros H. injection H as <-. constructor. apply fits_iff, Fi.
    + intros A. inversion A; subst. match goal with X : short _ _ |- _ => apply fits_iff in X; rewrite X end. reflexivity.
  - intros _ h R j v. destruct h; try discriminate R. cbn [take from_json]. split; [destruct j; try discriminate; intros H; injection H as <-; constructor|intros A; inversion A; reflexivity].
  - intros _ h R j v. destruct h; try discriminate R. cbn [take from_json]. split.
    + destruct j; try discriminate; intros H; injection H as <-; try constructor.
      * apply (wrap_iff z (wrap32 z)). reflexivity.
      * apply (wrap_iff z (wrap32 z)). reflexivity.
    + intros A. inversion A; subst; try reflexivity. f_equal. f_equal. apply wrap_iff. auto.
  - intros _ h R j v. destruct h; try discriminate R. cbn [take from_json]. split; [destruct j; try discriminate; intros H; injection H as <-; constructor|intros A; inversion A; reflexivity].
  - intros _ h R j v. destruct h; try discriminate R. cbn [take]. split.
    + destruct j; try discriminate. destruct (from_rfc3339 s) eqn:E; [|discriminate]. intros H. injection H as <-. constructor. exact E.
    + intros A. inversion A; subst. match goal with X : from_rfc3339 _ = _ |- _ => rewrite X end. reflexivity.
  - intros _ h R j v. destruct h; try discriminate R. cbn [take from_json]. split; [intros H; injection H as <-; constructor|intros A; inversion A; reflexivity].
  - intros e G h R j v. destruct h as [| |e'| | |]; try discriminate R. cbn [readable] in R. apply enum_eqb_eq in R. subst e'. cbn [take]. split.
    + destruct j; try discriminate. destruct (of_wire e s) as [x|] eqn:E; [|discriminate]. intros H. injection H as <-. apply (wire_iff e G) in E as [A B]. constructor; assumption.
    + intros A. inversion A; subst. assert (E : of_wire e s = Some x) by (apply (wire_iff e G); auto). rewrite E. reflexivity.
  - intros u IH G h R j v. cbn [sound] in G. specialize (IH G).
    assert (V : exists g, take h (from_json F (Vec u)) (element (Vec u)) j = option_map VVec (all_some (map g (elements j))) /\ (forall x y, g x = Some y <-> accepts F u y x)).
    { destruct h as [| |e'| |e'|]; try (destruct u; discriminate R).
      - exists (from_json F u). split; [reflexivity|]. assert (D : direct u = true) by (destruct u; exact R || discriminate R). exact (IH Plain (readable_direct u D)).
      - destruct u as [| | | | | |e| |]; try discriminate R. cbn [readable] in R. apply enum_eqb_eq in R. subst e'. eexists. split; [reflexivity|]. intros x y.
        assert (Re : readable (Enm e) (Conv e) = true).
        { cbn. unfold enum_eqb. rewrite String.eqb_refl. destruct (list_eq_dec string_dec _ _); [|congruence]. destruct (list_eq_dec pair_dec (e_out e) _); [|congruence]. destruct (list_eq_dec pair_dec (e_in e) _); [|congruence]. reflexivity. }
        specialize (IH (Conv e) Re x y). rewrite <- IH. cbn [take]. destruct x; reflexivity. }
    destruct V as (g&->&Gg). rewrite (vec_iff g (accepts F u) j v Gg). split.
    + intros (l&js&->&Pa&Fo). econstructor; eassumption.
    + intros A. inversion A; subst. eauto.
  - intros ms ws rs IH G h R j v. destruct h; try discriminate R. cbn [sound] in G. rewrite !andb_true_iff in G. destruct G as [[[Nm Sm] _] [[Nr Mr] Cr]].
    apply nodup_iff in Nm. apply nodup_iff in Nr. rewrite forallb_forall in Sm, Mr, Cr.
    assert (M : forall r, In r rs -> exists m, In m ms /\ rmatch ms r m = true) by (intros r Ir; apply existsb_exists; exact (Mr r Ir)).
    assert (C : forall m, In m ms -> exists r, In r rs /\ rmatch ms r m = true).
    { intros m Im. specialize (Cr m Im). apply mem_in in Cr. apply in_map_iff in Cr as (r&K&Ir). exists r. split; [exact Ir|]. destruct (M r Ir) as (m'&Im'&Rm).
      destruct (rmatch_shape ms r m' Rm) as (K'&_). rewrite (nodup_name ms m m' Nm Im Im'); [exact Rm|congruence]. }
    assert (T : forall r m, In r rs -> In m ms -> rmatch ms r m = true -> forall x y, take (rhow_of r) (from_json F (snd m)) (element (snd m)) x = Some y <->
       accepts F (snd m) y x \/ (lax ms (name m) /\ exists s, text_of x s /\ y = VStr s /\ accepts F (snd m) y (JStr s))).
    { intros r m Ir Im Rm x y. destruct (rmatch_shape ms r m Rm) as (_&_&Hh&_). unfold rhow in Hh. destruct (laxb ms (name m)) eqn:Lb.
      - destruct (snd m) as [max| | | | | | | |] eqn:Em; try discriminate Hh. destruct (rhow_of r); try discriminate Hh. apply lax_iff in Lb. rewrite text_iff. split.
        + intros E. right. auto.
        + intros [A|(_&E)]; [|exact E]. inversion A; subst. exists s. cbn. split; [reflexivity|]. split; [reflexivity|exact A].
      - rewrite Forall_forall in IH. rewrite (IH m Im (Sm m Im) _ Hh). split; [auto|]. intros [A|(D&_)]; [exact A|]. apply lax_iff in D. congruence. }
    cbn [take from_json]. change (fun m : string * bool * ty => (fst (fst m), (from_json F (snd m), match snd m with Vec u => from_json F u | _ => fun _ => None end))) with (fun m : string * bool * ty => (name m, (from_json F (snd m), element (snd m)))).
    change (map (fun m : string * bool * ty => (name m, (from_json F (snd m), element (snd m)))) ms) with (renv ms).
    pose proof (reads_run ms rs j Nm Nr M []) as Run. destruct (run_reads rs (renv ms) j []) as [set|].
    + destruct Run as [_ Run]. cbn [option_map]. split.
      * intros H. injection H as <-. constructor. apply forall2_combine; [rewrite map_length; reflexivity|]. intros m ov I. apply combine_self in I as [Im ->]. destruct (C m Im) as (r&Ir&Rm).
        specialize (Run r m Ir Im Rm). fold (name m). destruct (at_key (name m) j) as [x|] eqn:At.
        -- destruct Run as (y&Ty&->). apply at_under in At. apply (T r m Ir Im Rm) in Ty as [A|(L&s&Tx&->&A)]; [left; eauto|]. right. left. exists s, x. auto.
        -- destruct Run as [O ->]. right. right. split; [reflexivity|]. split; [exact O|]. intros x U. apply at_under in U. congruence.
      * intros A. inversion A as [| | | | | | | | | | | |ms' ws' rs' vs j' Fo]; subst. f_equal. f_equal. pose proof (forall2_length _ _ _ Fo) as L.
        assert (Eq : forall m ov, In (m, ov) (combine ms vs) -> assoc (name m) set = ov).
        { intros m ov I. pose proof (forall2_in _ _ _ _ _ Fo I) as X. cbv beta in X. assert (Im : In m ms) by exact (in_combine_l _ _ _ _ I). destruct (C m Im) as (r&Ir&Rm). specialize (Run r m Ir Im Rm). fold (name m) in X.
          destruct X as [(y&x&->&U&Ay)|[(s&x&->&U&Lx&Tx&Ay)|(->&O&U)]].
          - apply at_under in U. rewrite U in Run. destruct Run as (y'&Ty&->). assert (Ty' : take (rhow_of r) (from_json F (snd m)) (element (snd m)) x = Some y) by (apply (T r m Ir Im Rm); auto). congruence.
          - apply at_under in U. rewrite U in Run. destruct Run as (y'&Ty&->). assert (Ty' : take (rhow_of r) (from_json F (snd m)) (element (snd m)) x = Some (VStr s)) by (apply (T r m Ir Im Rm); eauto 6). congruence.
          - destruct (at_key (name m) j) as [x|] eqn:At; [exfalso; apply (U x); apply at_under, At|]. destruct Run as [_ ->]. reflexivity. }
        clear - L Eq. revert vs L Eq. induction ms as [|m ms IHm]; intros [|ov vs] L Eq; try discriminate L; [reflexivity|]. cbn [map]. rewrite (IHm vs); [|cbn in L; lia|intros; apply Eq; right; assumption].
        fold (name m). rewrite (Eq m ov (or_introl eq_refl)). reflexivity.
    + cbn [option_map]. split; [discriminate|]. intros A. exfalso. inversion A as [| | | | | | | | | | | |ms' ws' rs' vs j' Fo]; subst. destruct Run as (r&m&Ir&Im&Rm&X).
      destruct (in_combine ms vs m (forall2_length _ _ _ Fo) Im) as (ov&I). pose proof (forall2_in _ _ _ _ _ Fo I) as Y. cbv beta in Y. fold (name m) in Y.
      destruct Y as [(y&x&->&U&Ay)|[(s&x&->&U&Lx&Tx&Ay)|(->&O&U)]].
      * apply at_under in U. rewrite U in X. assert (Ty' : take (rhow_of r) (from_json F (snd m)) (element (snd m)) x = Some y) by (apply (T r m Ir Im Rm); auto). congruence.
      * apply at_under in U. rewrite U in X. assert (Ty' : take (rhow_of r) (from_json F (snd m)) (element (snd m)) x = Some (VStr s)) by (apply (T r m Ir Im Rm); eauto 6). congruence.
      * destruct (at_key (name m) j) as [x|] eqn:At; [exact (U x ltac:(apply at_under, At))|congruence].
Qed.
End Reading.
