(** What is said of customer information, monitoring reports, display messages and costs. *)
From Coq Require Import String Ascii ZArith QArith List Bool.
From Verif Require Import StrSpec BlkModel.
Import ListNotations.
Local Open Scope string_scope.
Local Open Scope list_scope.
Local Open Scope Z_scope.

(** A text in parts of 512 characters, numbered from [n] on, all but the last announcing another one. *)
Inductive split_from (id : Z) : Z -> string -> list info_out -> Prop :=
| split_last n s : (String.length s <= 512)%nat -> split_from id n s [INotify s n id false]
| split_more n a b l : String.length a = 512%nat -> b <> "" -> split_from id (n + 1) b l -> split_from id n (a ++ b)%string (INotify a n id true :: l).
(** What the station knows of a customer. *)
Definition cached (t : string) (c : cache) (entry : string) : Prop := exists c1 c2, c = c1 ++ (t, entry) :: c2 /\ forall x, ~ In (t, x) c1.
(** The first characters of a text. *)
Definition shortened (n : Z) (s t : string) : Prop :=
  (Z.of_nat (String.length s) <= n /\ t = s) \/ (n < Z.of_nat (String.length s) /\ Z.of_nat (String.length t) = n /\ exists u, s = (t ++ u)%string).
Definition named (r : info_req) : Prop := i_cert r <> None \/ i_token r <> None \/ i_ident r <> None.
(** The text of a sequence of NotifyCustomerInformation.reqs. *)
Definition texts (l : list info_out) : string := fold_right (fun o s => match o with INotify d _ _ _ => (d ++ s)%string | _ => s end) "" l.
(** UTF-8, as far as it is needed: sequences of one and two bytes. *)
Fixpoint utf8 (s : string) : bool :=
  match s with
  | "" => true
  | String a s =>
      let n := N_of_ascii a in
      if (n <? 128)%N then utf8 s
      else if (194 <=? n)%N && (n <? 224)%N then
        match s with String b s => let m := N_of_ascii b in (128 <=? m)%N && (m <? 192)%N && utf8 s | "" => false end
      else false
  end%string.

(** The monitors of a report. *)
Definition reported (l : list report_out) : list mdata := flat_map (fun o => match o with RNotify _ _ _ m => m | _ => [] end) l.
(** A report in [k] messages, numbered from [n] on, all but the last announcing another one. *)
Inductive numbered (id : Z) : Z -> nat -> list report_out -> Prop :=
| numbered_last n m : numbered id n 1 [RNotify id n false m]
| numbered_more n k m l : numbered id (n + 1) k l -> numbered id n (S k) (RNotify id n true m :: l).
(** A monitor as it is reported to the CSMS. *)
Definition plain_monitor (m m' : mdata) : Prop :=
  d_name m' = d_name m /\ Forall2 (fun v v' => v_id v' = v_id v /\ v_value v' = v_value v /\ v_event v' = None) (d_monitors m) (d_monitors m').

(** A message the CSMS can be told. *)
Definition complete (g : dmsg) : bool := match g_id g, g_priority g with Some _, Some _ => true | _, _ => false end.
Definition short (g : dmsg) : Prop :=
  (String.length (x_text (g_message g)) <= 1024)%nat
  /\ (forall s, x_language (g_message g) = Some s -> (String.length s <= 8)%nat)
  /\ (forall s, g_identifier g = Some s -> (String.length s <= 36)%nat).
(** The message the CSMS is told for a message of the station. *)
Definition tells (g : dmsg) (m : minfo) : Prop :=
  g_id g = Some (m_id m) /\ g_priority g = Some (m_priority m) /\ m_state m = g_state g /\ m_start m = g_from g /\ m_end m = g_to g
  /\ m_transaction m = g_identifier g /\ k_text (m_message m) = x_text (g_message g) /\ k_language (m_message m) = x_language (g_message g)
  /\ (forall f, x_format (g_message g) = Some f -> k_format (m_message m) = f) /\ (x_format (g_message g) = None -> k_format (m_message m) = "UTF8")
  /\ m_display m = None /\ m_extra m = None.
(** A list of values as the device model has it: separated by commas, perhaps with spaces around. *)
Definition value_list (l : list string) (s : string) : Prop :=
  exists f : list (nat * string * nat), f <> [] /\ Forall (fun x => without "," (snd (fst x)) /\ neat (snd (fst x))) f
  /\ s = joined "," (map (fun x => spaces (fst (fst x)) ++ snd (fst x) ++ spaces (snd x))%string f) /\ l = map (fun x => snd (fst x)) f.
(** What the CSMS can send: texts that are not too long. *)
Definition ok_message (m : minfo) : Prop :=
  (String.length (k_text (m_message m)) <= 1024)%nat
  /\ (forall s, k_language (m_message m) = Some s -> (String.length s <= 8)%nat)
  /\ (forall s, m_transaction m = Some s -> (String.length s <= 36)%nat).

(** A variable that is true. *)
Definition is_on (b : option bool) : Prop := b = Some true.
Definition shows_tariffs (e : cost_env) : Prop := is_on (z_tariff_available e) /\ is_on (z_tariff_enabled e).
Definition shows_costs (e : cost_env) : Prop := is_on (z_cost_available e) /\ is_on (z_cost_enabled e).
(** The first energy register of each set of sampled values. *)
Definition register_of (l : list sample) (q : Q) : Prop :=
  exists l1 s l2, l = l1 ++ s :: l2 /\ s_measurand s = Some "Energy.Active.Import.Register" /\ s_phase s = None /\ s_value s = q
  /\ forall x, In x l1 -> ~ (s_measurand x = Some "Energy.Active.Import.Register" /\ s_phase x = None).
Definition readings (l : list (list sample)) (q : Q) : Prop := exists x, In x l /\ register_of x q.
