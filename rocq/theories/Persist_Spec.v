(** Specification vocabulary for bans across restarts. *)
From Verif Require Import Base Ticket_Model BanManager_Model Actions_Model Actions_Spec Persist_Model.
From Verif Require Database_Model Database_Spec.

(** The jail's default ban time. *)
Definition dflt_of (e : penv) : Z := Database_Model.js_bantime (e_js e).
Definition proper (bt : Z) : Prop := bt = -1 \/ 0 < bt.

(** A configured jail with a database whose actions' consistency checks do not raise. *)
Definition sane_env (e : penv) : Prop :=
  Database_Spec.sane_settings (e_cfg e) /\ Database_Spec.sane_jail (e_js e) /\ proper (dflt_of e)
  /\ fresh_acts (e_new e) /\ bm_time (as_bm (e_new e)) = dflt_of e /\ as_queue (e_new e) = [] /\ as_db (e_new e) = true
  /\ quiet_checks (e_orc e).

(** The ID's ban is in force: in the ban list, or read back from the database and still waiting in
    the jail's queue. *)
Definition waits (st : pstate) (id : string) (t : ticket) : Prop :=
  In t (as_queue (p_acts st)) /\ t_restored t = true /\ t_id t = id.
Definition in_force (st : pstate) (id : string) (t : ticket) : Prop :=
  dget id (bm_list (as_bm (p_acts st))) = Some t \/ waits st id t.

(** The observer has not yet dealt with a ban of the ID. *)
Definition pend_id (p : pend) : string := match p with PLive id _ => id | PDead t _ => t_id t end.
Definition unstored (st : pstate) (id : string) : Prop := In id (map pend_id (p_pend st)).

(** What an operation must not do for the database to keep up with the ban list: lengthen a ban that
    is running, unban an ID whose ban the observer has not stored yet or that waits to be restored. *)
Definition no_longer (e : penv) (st : pstate) (tk : ticket) : Prop :=
  forall old, dget (t_id tk) (bm_list (as_bm (p_acts st))) = Some old ->
  end_of_ban (dflt_of e) tk <= end_of_ban (dflt_of e) old.
Definition settled (st : pstate) (id : string) : Prop := ~ unstored st id /\ forall t, ~ waits st id t.

(** A call of the database that does not concern the jail's bans. *)
Definition elsewhere (e : penv) (o : Database_Model.db_op) : Prop :=
  match o with
  | Database_Model.DAddJail j | Database_Model.DDelJail j | Database_Model.DDelBan j _ => j <> e_jail e
  | Database_Model.DAddBan j bt t => j <> e_jail e /\ proper (get_bantime bt t)
  | Database_Model.DStart => False
  | _ => True
  end.

Definition fine (e : penv) (st : pstate) (o : p_op) : Prop :=
  match o with
  | PPut tk => t_restored tk = false /\ proper (get_bantime (dflt_of e) tk)
  | PTake _ _ => match as_queue (p_acts st) with [] => True | tk :: _ => no_longer e st tk end
  | PBan id now _ => no_longer e st (command_ticket id now) /\ forall t, ~ waits st id t
  | PExpire _ _ | PRestart _ => True
  | PUnban ids _ => forall id, In id ids \/ In id (lifted (e_sub e) ids (banned_ids (p_acts st))) -> settled st id
  | PFlush => forall id, settled st id
  | PObserve _ inc =>
      match p_pend st, inc with
      | PLive _ _ :: _, Some (b, again) => proper b /\ again = false
      | PDead _ _ :: _, Some _ => False           (* no increment for a ban that is over *)
      | _, _ => True
      end
  | PDb o => elsewhere e o
  end.

(** The clock does not go back. *)
Definition op_time (o : p_op) : option Z :=
  match o with
  | PTake now _ | PBan _ now _ | PExpire now _ | PObserve now _ | PRestart now => Some now
  | PDb (Database_Model.DPurge now) => Some now
  | _ => None
  end.
Definition tick (c : Z) (o : p_op) : Z := match op_time o with Some now => now | None => c end.
Fixpoint careful (e : penv) (c : Z) (st : pstate) (ops : list p_op) : Prop :=
  match ops with
  | [] => True
  | o :: r => (c <= tick c o <= MAX_TIME) /\ fine e st o /\ careful e (tick c o) (p_step e st o) r
  end.
Definition clock_after (c : Z) (ops : list p_op) : Z := fold_left tick ops c.

(** The bans that a restart at [now] brings back, in the order in which they will be banned again. *)
Definition brought_back (e : penv) (st : pstate) (now : Z) : list ticket :=
  as_queue (p_acts (p_step e st (PRestart now))).

(** The ban time that counts after a restart, and whether such a ban still runs. *)
Definition length_then (e : penv) (t : ticket) : Z := Database_Spec.limited (e_js e) (get_bantime (dflt_of e) t).
Definition still_runs (e : penv) (now : Z) (t : ticket) : Prop := Database_Spec.running now (t_time t) (length_then e t).

(** The operation lifts the ban of the ID by command. *)
Definition lifts (e : penv) (st : pstate) (o : p_op) (id : string) : Prop :=
  match o with
  | PUnban ids _ => In id ids \/ In id (lifted (e_sub e) ids (banned_ids (p_acts st)))
  | PFlush => True
  | _ => False
  end.
Fixpoint never_lifted (e : penv) (st : pstate) (ops : list p_op) (id : string) : Prop :=
  match ops with
  | [] => True
  | o :: r => ~ lifts e st o id /\ never_lifted e (p_step e st o) r id
  end.
