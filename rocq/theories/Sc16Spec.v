(** Specification of the OCPP 1.6 smart charging handler, stated over the installed
    profiles. *)

From Coq Require Import ZArith List Bool Sorted.
From Verif Require Import Prof16Model Prof16Spec Sc16Model.
Import ListNotations.
Open Scope Z_scope.

(** Every profile is filed under its own stack level and in a map of its own purpose, keys are
    ascending; station-wide profiles are never relative; the pseudo connector 0 holds nothing. *)
Definition map_ok (P : profile -> Prop) (m : pmap) : Prop :=
  StronglySorted Z.lt (map fst m) /\ Forall (fun kp => fst kp = pf_stack (snd kp) /\ P (snd kp)) m.

Definition conn_ok (c : connector) : Prop :=
  map_ok (fun p => pf_purpose p = PTxDefault) (c_txdefault c) /\
  map_ok (fun p => pf_purpose p = PTx) (c_txprofiles c).

Definition handler_ok (h : handler) : Prop :=
  map_ok (fun p => pf_purpose p = PMax /\ pf_kind p <> Relative) (h_max h) /\
  Forall conn_ok (h_conns h) /\
  (exists c0 r, h_conns h = c0 :: r /\ c_txdefault c0 = [] /\ c_txprofiles c0 = []).

(** The profiles that matter for a connector: station-wide ones, the connector's
    TxDefaultProfiles, and its TxProfiles unless they name another transaction; none whose
    purpose is being ignored. *)
Definition applicable (h : handler) (conn : Z) (ignore : list purpose) (p : profile) : Prop :=
  ~ In (pf_purpose p) ignore /\
  (In p (map snd (h_max h)) \/
   (0 < conn /\
    exists c, nth_error (h_conns h) (Z.to_nat conn) = Some c /\
      (In p (map snd (c_txdefault c)) \/
       (In p (map snd (c_txprofiles c)) /\
        forall t, pf_tx p = Some t -> exists ts, c_tx c = Some (t, ts))))).

(** When the transaction of a connector started. *)
Definition session_start (h : handler) (conn : Z) : option Z :=
  match nth_error (h_conns h) (Z.to_nat conn) with
  | Some c => match c_tx c with Some (_, ts) => Some ts | None => None end
  | None => None
  end.

Definition active (session : option Z) (simulate : bool) : bool :=
  match session with Some _ => true | None => simulate end.

(** Usable profiles: ascending periods, finite limits, and a validity end that is not absurdly
    far before the window. *)
Definition usable (now end_ : Z) (session : option Z) (p : profile) : Prop :=
  wf_schedule (pf_sched p) /\ sane_limits p /\ near_valid_to p now end_ session.

(** What the transaction-related profiles allow on one connector. *)
Definition connector_allows (act : bool) (tx txdefault : option (profile * csp)) : allowed :=
  if act then allowed_by (override tx txdefault) else allowed_none.

(** The sum over all connectors of what their transaction-related profiles allow. *)
Definition all_connectors_allow (ar : arith) (k : ccfg) (acts : list bool)
           (parts : list (option (profile * csp) * option (profile * csp))) : allowed :=
  allowed_sum ar (k_current k) (k_power k)
    (map (fun ar' : bool * (option (profile * csp) * option (profile * csp)) =>
            connector_allows (fst ar') (fst (snd ar')) (snd (snd ar'))) (combine acts parts)).

(** The unit a GetCompositeSchedule request is answered in. *)
Definition answer_unit (g : cfg) (r : option runit) (u : runit) : Prop :=
  match r with Some x => In x (g_units g) /\ u = x | None => exists l, g_units g = u :: l end.

(** ** Acceptance *)

Definition all_installed (h : handler) : list profile :=
  map snd (h_max h) ++
  flat_map (fun c => map snd (c_txdefault c) ++ map snd (c_txprofiles c)) (h_conns h).

Definition good_period (c : csp) : Prop :=
  0 <= sp_limit c /\ forall n, sp_phases c = Some n -> 1 <= n <= 3.

(** The transaction a TxProfile may be meant for. *)
Definition tx_agrees (no_tx_ok : bool) (c : connector) (p : profile) : Prop :=
  match c_tx c with
  | None => pf_tx p = None /\ no_tx_ok = true
  | Some (t, _) => pf_tx p = None \/ pf_tx p = Some t
  end.

Definition acceptable (g : cfg) (h : handler) (conn : Z) (no_tx_ok : bool) (p : profile) : Prop :=
  0 <= conn < Z.of_nat (length (h_conns h)) /\
  0 <= pf_stack p <= g_max_stack g /\
  Z.of_nat (length (all_installed h)) < g_max_installed g /\
  Z.of_nat (length (sc_periods (pf_sched p))) <= g_max_periods g /\
  In (sc_unit (pf_sched p)) (g_units g) /\
  (forall c, In c (sc_periods (pf_sched p)) -> good_period c) /\
  (pf_kind p <> Relative -> sc_start (pf_sched p) = None -> g_no_start g = true) /\
  (pf_kind p = Recurring -> pf_recur p <> None) /\
  match pf_purpose p with
  | PMax => conn = 0 /\ pf_kind p <> Relative
  | PTxDefault => True
  | PTx => conn <> 0 /\ exists c, nth_error (h_conns h) (Z.to_nat conn) = Some c /\ tx_agrees no_tx_ok c p
  end.

(** The profile as it is installed: a missing start becomes the time of arrival, and a
    recurring schedule lasts at most until its next occurrence. *)
Definition completed (now : Z) (p : profile) : profile :=
  {| pf_id := pf_id p; pf_stack := pf_stack p; pf_purpose := pf_purpose p; pf_kind := pf_kind p;
     pf_sched :=
       {| sc_unit := sc_unit (pf_sched p); sc_periods := sc_periods (pf_sched p);
          sc_duration :=
            match pf_kind p, pf_recur p, sc_duration (pf_sched p) with
            | Recurring, Some Daily, Some d => Some (Z.min d 86400)
            | Recurring, Some Weekly, Some d => Some (Z.min d 604800)
            | _, _, d => d
            end;
          sc_start :=
            match pf_kind p, sc_start (pf_sched p) with
            | Relative, s => s
            | _, None => Some now
            | _, s => s
            end |};
     pf_tx := pf_tx p; pf_recur := pf_recur p; pf_from := pf_from p; pf_to := pf_to p |}.

(** ** Where profiles are held *)

Inductive place := AtStation | AtDefault (conn : Z) | AtTx (conn : Z).

Definition connector_at (h : handler) (i : Z) : option connector :=
  if i <? 0 then None else nth_error (h_conns h) (Z.to_nat i).

Definition holds (h : handler) (w : place) (p : profile) : Prop :=
  match w with
  | AtStation => In p (map snd (h_max h))
  | AtDefault i => exists c, connector_at h i = Some c /\ In p (map snd (c_txdefault c))
  | AtTx i => exists c, connector_at h i = Some c /\ In p (map snd (c_txprofiles c))
  end.

Definition connector_of (w : place) : Z :=
  match w with AtStation => 0 | AtDefault i => i | AtTx i => i end.

Definition transactions (h : handler) : list (option (Z * Z)) := map c_tx (h_conns h).

(** What a ClearChargingProfile request asks to remove. *)
Definition asked (f : filt) (w : place) (p : profile) : Prop :=
  match f_id f with
  | Some i => pf_id p = i
  | None =>
      (forall c, f_conn f = Some c -> connector_of w = c) /\
      (forall s, f_stack f = Some s -> pf_stack p = s) /\
      (forall u, f_purpose f = Some u -> pf_purpose p = u)
  end.

Definition some_criterion (f : filt) : Prop :=
  f_id f <> None \/ f_conn f <> None \/ f_stack f <> None \/ f_purpose f <> None.

(** The places a profile set for [conn] goes to. *)
Definition target (h : handler) (conn : Z) (p : profile) (w : place) : Prop :=
  match pf_purpose p with
  | PMax => w = AtStation
  | PTxDefault =>
      exists i, w = AtDefault i /\
        ((conn = 0 /\ 1 <= i < Z.of_nat (length (h_conns h))) \/ (conn <> 0 /\ i = conn))
  | PTx => w = AtTx conn
  end.

(** Two installed profiles with the same id are one profile. *)
Definition unique_ids (h : handler) : Prop :=
  forall w1 w2 p1 p2, holds h w1 p1 -> holds h w2 p2 -> pf_id p1 = pf_id p2 -> p1 = p2.

(** Past its validity, or an absolute schedule that has run out. *)
Definition is_over (now : Z) (p : profile) : Prop :=
  (exists t, pf_to p = Some t /\ t < now) \/
  (pf_kind p = Absolute /\
   exists s d, sc_start (pf_sched p) = Some s /\ sc_duration (pf_sched p) = Some d /\
               s + d * 1000000000 < now).

(** ** Histories of the handler *)

Inductive op :=
| OpSet (now conn : Z) (p : profile)
| OpRemoteStart (now : Z) (conn : option Z) (p : profile)
| OpClear (f : filt)
| OpStarted (conn : Z) (id ts : Z)
| OpStopped (conn : Z)
| OpExpire (now : Z)
| OpRestart (now : Z) (resumed : list (option (Z * Z))).

Definition step (g : cfg) (h : handler) (o : op) : handler :=
  match o with
  | OpSet now conn p => fst (set_charging_profile g h now conn p)
  | OpRemoteStart now conn p =>
      match remote_start_profile g h now conn p with Some h' => h' | None => h end
  | OpClear f => fst (clear_charging_profile h f)
  | OpStarted conn id ts =>
      set_conns h (update_nth (Z.to_nat conn) (fun c => set_c_tx c (Some (id, ts))) (h_conns h))
  | OpStopped conn => transaction_stopped h conn
  | OpExpire now => clear_expired_profiles now h
  | OpRestart now resumed => restart g now (None :: resumed) h
  end.

Definition fresh (n : nat) : handler :=
  {| h_max := []; h_conns := repeat {| c_tx := None; c_txdefault := []; c_txprofiles := [] |} (S n);
     h_db := [] |}.

Definition run (g : cfg) (n : nat) (os : list op) : handler := fold_left (step g) os (fresh n).

(** The transaction running on a connector. *)
Definition running (h : handler) (i : Z) : option (Z * Z) :=
  match connector_at h i with Some c => c_tx c | None => None end.

(** Transactions start only on connectors without one. *)
Definition idle_starts (g : cfg) (n : nat) (os : list op) : Prop :=
  forall pre conn id ts post, os = pre ++ OpStarted conn id ts :: post ->
    0 <= conn /\ running (run g n pre) conn = None.

Definition no_remote_start (os : list op) : Prop :=
  Forall (fun o => match o with OpRemoteStart _ _ _ => False | _ => True end) os.

(** ** The database *)

(** A stored profile is in force wherever it was installed. *)
Definition stored_in_force (h : handler) : Prop :=
  forall conn q w, In (conn, q) (h_db h) -> target h conn q w -> holds h w q.

(** Memory and database hold the same profiles. *)
Definition in_sync (h : handler) : Prop :=
  forall w q, holds h w q <-> exists conn, In (conn, q) (h_db h) /\ target h conn q w.

(** The station has the same number of connectors after each restart. *)
Definition same_station (n : nat) (os : list op) : Prop :=
  Forall (fun o => match o with OpRestart _ r => length r = n | _ => True end) os.

(** Connector ids are 32-bit integers. *)
Definition int32 (x : Z) : Prop := -2147483648 <= x <= 2147483647.
Definition machine_ids (os : list op) : Prop :=
  Forall (fun o => match o with
                   | OpSet _ conn _ => int32 conn
                   | OpRemoteStart _ (Some conn) _ => int32 conn
                   | OpRestart _ r => Z.of_nat (S (length r)) <= 2147483647
                   | _ => True
                   end) os.
