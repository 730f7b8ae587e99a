(** What the initialisation of the device model database has to achieve, said with the configuration and the rows alone. *)
From Coq Require Import ZArith String List Bool.
From Verif Require Import StrModel IdbModel.
From Verif Require DmModel.
Import ListNotations.
Local Open Scope string_scope.
Local Open Scope list_scope.
Local Open Scope Z_scope.

Definition ckey_dec : forall a b : ckey, {a = b} + {a <> b}.
Proof. repeat decide equality. Defined.
Definition vkey_dec : forall a b : vkey, {a = b} + {a <> b}.
Proof. repeat decide equality. Defined.
Definition atype_dec : forall a b : option attr_type, {a = b} + {a <> b}.
Proof. repeat decide equality. Defined.
Definition pair_dec : forall a b : Z * ckey, {a = b} + {a <> b}.
Proof. intros a b. decide equality; [apply ckey_dec | apply Z.eq_dec]. Defined.
Definition is {A} (dec : forall a b : A, {a = b} + {a <> b}) (a b : A) : bool := if dec a b then true else false.

(** The rows of a variable of a component, of an attribute of it, and its monitors. *)
Definition vars_at (d : db) (k : ckey) (v : vkey) : list vrow :=
  filter (fun r => is vkey_dec (v_key r) v && if in_dec pair_dec (v_cid r, k) (d_comps d) then true else false) (d_vars d).
Definition attrs_of (t : option attr_type) (l : list arow) : list arow := filter (fun a => is atype_dec (a_type a) t) l.
Definition attr_at (d : db) (k : ckey) (v : vkey) (t : option attr_type) : list arow :=
  flat_map (fun r => attrs_of t (v_attrs r)) (vars_at d k v).
Definition own_mons (l : list (Z * mon)) : list (Z * mon) :=
  filter (fun e => match m_cfg (snd e) with DmModel.Custom => false | _ => true end) l.
Definition custom_mons (l : list (Z * mon)) : list (Z * mon) :=
  filter (fun e => match m_cfg (snd e) with DmModel.Custom => true | _ => false end) l.

(** ** Configurations and histories *)
Definition short (o : option string) : Prop := match o with Some x => Z.of_nat (String.length x) <= 2500 | None => True end.
(** A value of a data type; the empty text is one of every type. *)
Definition typed (t : data_type) (o : option string) : Prop :=
  match o with
  | None => True
  | Some x => x = "" \/ match t with
                        | DmModel.TDecimal => is_integer x = true \/ is_decimal_number x = true
                        | DmModel.TInteger => is_integer x = true
                        | DmModel.TDateTime => is_rfc3339_datetime x = true
                        | DmModel.TBoolean => is_boolean x = true
                        | _ => True
                        end
  end.
Record good_var (c : cvar) : Prop := {
  gv_inst : vk_inst (cv_key c) <> Some "";
  gv_attrs : cv_attrs c <> [];
  gv_types : NoDup (map ca_type (cv_attrs c));
  gv_short : short (cv_default c) /\ forall a, In a (cv_attrs c) -> short (ca_value a);
  gv_mons : NoDup (map (fun m => (m_type m, m_sev m)) (cv_mons c));
  gv_own : forall m, In m (cv_mons c) -> m_cfg m <> DmModel.Custom /\ (m_type m = DmModel.Delta -> m_ref m <> None) }.
(** Values of the right types, names that occur once, and instances, attributes and variables that are not empty. *)
Record good_config (cfg : config) : Prop := {
  gc_keys : NoDup (map fst cfg);
  gc_inst : forall e, In e cfg -> k_inst (fst e) <> Some "" /\ snd e <> [] /\ NoDup (map cv_key (snd e));
  gc_vars : forall e c, In e cfg -> In c (snd e) -> good_var c;
  gc_typed : forall e c, In e cfg -> In c (snd e) ->
    typed (ch_type (cv_chars c)) (cv_default c)
    /\ forall a, In a (cv_attrs c) -> typed (ch_type (cv_chars c)) (ca_value a) }.
Definition good_op (o : op) : Prop :=
  match o with
  | Start cfg _ => good_config cfg
  | Write _ _ _ x _ => Z.of_nat (String.length x) <= 2500
  | AddMonitor _ _ m => m_cfg m = DmModel.Custom
  | _ => True
  end.
(** The variable of a configuration. *)
Definition configures (cfg : config) (k : ckey) (c : cvar) : Prop := exists vs, In (k, vs) cfg /\ In c vs.

(** ** What a start has to make of the database *)
(** Who else than the configuration has set a value? *)
Definition set_by (s : option string) : Prop := match s with None => False | Some x => x <> "default" /\ x <> "" end.
Definition given (c : cattr) (def : option string) : option string :=
  match ca_value c, ca_type c with
  | Some x, _ => Some x
  | None, Some DmModel.Actual => def
  | None, _ => None
  end.
Definition alike (a b : option string) : Prop :=
  match a, b with Some x, Some y => iequals x y = true | None, None => True | _, _ => False end.
(** An attribute: [o] before, if there was one, [a] after. *)
Record attr_ok (c : cattr) (def : option string) (o : option arow) (a : arow) : Prop := {
  ao_type : a_type a = ca_type c;
  ao_mut : a_mut a = ca_mut c;
  ao_set : forall b, o = Some b -> set_by (a_src b) -> a_value a = a_value b /\ a_src a = a_src b;
  ao_given : forall x, given c def = Some x ->
    (forall b, o = Some b -> ~ set_by (a_src b) /\ (ca_value c = None -> a_value b <> None)) ->
    exists y, a_value a = Some y /\ iequals x y = true;
  ao_not_given : given c def = None -> a_value a = match o with Some b => a_value b | None => None end;
  ao_id : forall b, o = Some b -> a_id a = a_id b }.
(** Characteristics up to the case of letters in units and lists of values. *)
Definition chars_alike (a b : chars) : Prop :=
  ch_type a = ch_type b /\ ch_mon a = ch_mon b /\ ch_min a = ch_min b /\ ch_max a = ch_max b
  /\ alike (ch_unit a) (ch_unit b) /\ alike (ch_values a) (ch_values b).
(** Monitors up to a difference of their value that a float cannot be relied on to have. *)
Definition mon_alike (a b : mon) : Prop :=
  m_sev a = m_sev b /\ m_tx a = m_tx b /\ m_type a = m_type b /\ m_cfg a = m_cfg b /\ m_ref a = m_ref b
  /\ Z.abs (m_val a - m_val b) <= 2 ^ 126.
(** The monitors of the configuration are there, each once, and no others but custom ones. *)
Definition mons_ok (cs : list mon) (l : list (Z * mon)) : Prop :=
  (forall m, In m cs -> exists e, filter (fun e => DmModel.mt_eqb (m_type (snd e)) (m_type m) && (m_sev (snd e) =? m_sev m)) (own_mons l) = [e]
                                  /\ mon_alike m (snd e))
  /\ forall e, In e (own_mons l) -> exists m, In m cs /\ mon_alike m (snd e).
(** A variable: [o] before, if there was one, [v] after. *)
Record var_ok (c : cvar) (o : option vrow) (v : vrow) : Prop := {
  vo_chars : chars_alike (cv_chars c) (v_chars v);
  vo_attrs : forall t, (forall a, In a (cv_attrs c) -> ca_type a = t ->
                          exists r, attrs_of t (v_attrs v) = [r]
                                    /\ attr_ok a (cv_default c) (hd_error (attrs_of t (match o with Some w => v_attrs w | None => [] end))) r)
                       /\ ((forall a, In a (cv_attrs c) -> ca_type a <> t) -> attrs_of t (v_attrs v) = []);
  vo_mons : mons_ok (cv_mons c) (v_mons v);
  vo_custom : custom_mons (v_mons v) = match o with Some w => custom_mons (v_mons w) | None => [] end;
  vo_source : v_source v = cv_source c \/ exists w, o = Some w /\ v = w;
  vo_new : o = None -> v_source v = cv_source c /\ v_chars v = cv_chars c;
  vo_id : forall w, o = Some w -> v_id v = v_id w }.
(** The components and variables are those of the configuration, each once. *)
Record reflects (cfg : config) (old new : db) : Prop := {
  rf_comps : forall k, In k (map snd (d_comps new)) <-> In k (map fst cfg);
  rf_once : NoDup (map snd (d_comps new));
  rf_vars : forall k c, configures cfg k c ->
    exists v, vars_at new k (cv_key c) = [v] /\ var_ok c (hd_error (vars_at old k (cv_key c))) v;
  rf_only : forall v, In v (d_vars new) -> exists k c, configures cfg k c /\ v_key v = cv_key c /\ In (v_cid v, k) (d_comps new) }.

(** ** Histories *)
(** What an operation must not do to an attribute: a start has to keep it, and it must not be written. *)
Definition spares (k : ckey) (v : vkey) (t : attr_type) (o : op) : Prop :=
  match o with
  | Start cfg _ => exists c a, configures cfg k c /\ cv_key c = v /\ In a (cv_attrs c) /\ ca_type a = Some t
  | Write k' v' t' _ _ => (k', v', t') <> (k, v, t)
  | _ => True
  end.
(** The value and who set it. *)
Definition holds (d : db) (k : ckey) (v : vkey) (t : attr_type) (x s : option string) : Prop :=
  exists a, attr_at d k v (Some t) = [a] /\ a_value a = x /\ a_src a = s.
(** The custom monitors of a variable. *)
Definition customs_at (d : db) (k : ckey) (v : vkey) : list (Z * mon) := flat_map (fun r => custom_mons (v_mons r)) (vars_at d k v).
(** What an operation must not do to a monitor: a start has to keep its variable, and it must not be changed or cleared. *)
Definition leaves (k : ckey) (v : vkey) (i : Z) (o : op) : Prop :=
  match o with
  | Start cfg _ => exists c, configures cfg k c /\ cv_key c = v
  | SetReference j _ | ClearMonitor j _ => j <> i
  | _ => True
  end.

(** ** Configuration files *)
(** The first file of a component that has properties. *)
Definition first_of (k : ckey) (l : list (ckey * option (list cvar))) : option (list cvar) :=
  hd_error (flat_map (fun f => if ckey_dec (fst f) k then match snd f with Some vs => [vs] | None => [] end else []) l).
