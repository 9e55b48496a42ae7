(** A jail's bans across restarts: its actions (Actions_Model), the observer that stores bans later in
    its own thread (observer.py:467-507) and the database that bans are restored from at the start of
    the jail (Database_Model; jail.py:281-316).

    The threads are interleaved: a history is a list of steps, each of them the handling of one ticket
    by the actions, one command, one event of the observer, one call of the database, or a restart,
    which can come at any place (a crash).

    Simplifications: those of the parts; the settings of the jail stay the same; the observer's
    database look-up for the increment of ban times (observer.py:426-465) is an arbitrary answer
    [inc]. *)
From Verif Require Import Base Ticket_Model BanManager_Model Actions_Model.
From Verif Require Database_Model.

(** An event banFound waiting for the observer, actions.py:505: its ticket and ban time.  The ticket
    is the object in the ban list ([PLive]) until that is removed from the list ([PDead]). *)
Inductive pend := PLive (id : string) (btime : Z) | PDead (t : ticket) (btime : Z).

Record pstate := mkP {
  p_acts : acts;
  p_pend : list pend;                (* the observer's queue: its events banFound of this jail *)
  p_db   : Database_Model.db
}.

(** The jail's fixed surroundings. *)
Record penv := mkEnv {
  e_orc  : oracle;
  e_sub  : string -> option (string -> bool);
  e_cfg  : Database_Model.settings;
  e_jail : string;                   (* name of the jail *)
  e_js   : Database_Model.jset;      (* its settings *)
  e_ign  : string -> bool;           (* its ignore list *)
  e_new  : acts                      (* its actions before the start *)
}.

Inductive p_op :=
| PPut (tk : ticket)                            (* jail.putFailTicket, jail.py:205-210 *)
| PTake (now : Z) (ra : list string)            (* __checkBan: one ticket of the queue, actions.py:494-556 *)
| PBan (id : string) (now : Z) (ra : list string)   (* set <JAIL> banip: one of its addresses *)
| PExpire (now : Z) (maxCount : nat)            (* __checkUnBan *)
| PUnban (ids : list string) (ifexists : bool)  (* set <JAIL> unbanip *)
| PFlush                                        (* unban --all: removeBannedIP() *)
| PObserve (now : Z) (inc : option (Z * bool))  (* observer: one event banFound *)
| PDb (o : Database_Model.db_op)                (* other calls of the database *)
| PRestart (now : Z).                           (* the server dies and starts again *)

Section WithEnv.
Context (e : penv).

(** What a step of the actions told the observer and the database, in order. *)
Definition new_events (s s' : acts) : list call := map fst (skipn (length (as_trace s)) (as_trace s')).

(** An event's ticket outlives its place in the ban list. *)
Definition detach (old new : acts) (p : pend) : pend :=
  match p with
  | PLive id b =>
      if dmem id (bm_list (as_bm new)) then p
      else match dget id (bm_list (as_bm old)) with Some t => PDead t b | None => p end
  | PDead _ _ => p
  end.

(** actions.py:505 Observers.Main.add('banFound', bTicket, jail, btime); database.py:605-629 delBan *)
Definition tell_observer (btime : Z) (evs : list call) : list pend :=
  flat_map (fun c => match c with CObserver id => [PLive id btime] | _ => [] end) evs.
Definition tell_db (evs : list call) (d : Database_Model.db) : Database_Model.db :=
  fold_left (fun d c => match c with
                        | CDbDel (Some id) => Database_Model.del_ban (e_jail e) [id] d
                        | CDbDel None => Database_Model.del_ban (e_jail e) [] d
                        | _ => d
                        end) evs d.

(** A step of the actions and its consequences; [btime]: the ban time of the ticket, actions.py:497 *)
Definition acted (st : pstate) (btime : Z) (new : acts) : pstate :=
  let old := p_acts st in
  let evs := new_events old new in
  mkP new (map (detach old new) (p_pend st) ++ tell_observer btime evs) (tell_db evs (p_db st)).

(** observer.py:467-507 banFound(ticket, jail, btime) with its caller, the observer's loop.
    [inc]: what incrBanTime found, if it is asked (observer.py:482): the new ban time, which it writes
    into the ticket, and whether it marked the ticket as restored (observer.py:460-461). *)
Definition observe (st : pstate) (now : Z) (inc : option (Z * bool)) : pstate :=
  match p_pend st with
  | [] => st
  | p :: r =>
      let bm := as_bm (p_acts st) in
      match (match p with PLive id b => match dget id (bm_list bm) with Some t => Some (t, b) | None => None end
                        | PDead t b => Some (t, b) end) with
      | None => mkP (p_acts st) r (p_db st)                         (* not reachable *)
      | Some (t, btime) =>
          if t_restored t then mkP (p_acts st) r (p_db st)
          else
            let inc := if negb (btime =? -1) && match t_bantime t with None => true | Some _ => false end
                       then inc else None in
            let '(btime, t) := match inc with
                               | Some (b, again) => (b, with_restored again (with_bantime (Some b) t))
                               | None => (btime, t)
                               end in
            let a := match p with
                     | PLive id _ => with_bm (bm_with_list (dset id t (bm_list bm)) bm) (p_acts st)
                     | PDead _ _ => p_acts st
                     end in
            if negb (btime =? -1) && (t_time t + btime <? now) then mkP a r (p_db st)
            else if t_restored t then mkP a r (p_db st)
            else mkP a r (fst (Database_Model.add_ban (e_cfg e) (e_jail e) (bm_time bm) t (p_db st)))
      end
  end.

(** The server starts again: the database is opened (server.py:828-849), the jail is added to it
    (server.py:254-255) and its bans are put into the queue (jail.py:281-316). *)
Definition restart (st : pstate) (now : Z) : pstate :=
  let d := Database_Model.db_step (e_cfg e) (Database_Model.db_step (e_cfg e) (p_db st) Database_Model.DStart)
             (Database_Model.DAddJail (e_jail e)) in
  mkP (with_queue (Database_Model.restore (e_jail e) (e_js e) now (fun _ => now) (e_ign e) d) (e_new e)) [] d.

(** The ticket of one address given to banip, actions.py:232-243 *)
Definition command_ticket (id : string) (now : Z) : ticket := with_isban true (new_ticket id now [] 0).

Definition p_step (st : pstate) (o : p_op) : pstate :=
  let a := p_acts st in
  let dflt := bm_time (as_bm a) in
  match o with
  | PPut tk => mkP (with_queue (as_queue a ++ [tk]) a) (p_pend st) (p_db st)
  | PTake now ra =>
      match as_queue a with
      | [] => st
      | tk :: q => acted st (get_bantime dflt tk) (fst (check_ban_one (e_orc e) tk now ra (with_queue q a)))
      end
  | PBan id now ra =>
      acted st (get_bantime dflt (command_ticket id now)) (fst (check_ban_one (e_orc e) (command_ticket id now) now ra a))
  | PExpire now n => acted st 0 (fst (check_unban (e_orc e) now n a))
  | PUnban ids ifexists => acted st 0 (fst (remove_banned (e_orc e) (e_sub e) ids true ifexists a))
  | PFlush => acted st 0 (fst (flush_ban (e_orc e) true None a))
  | PObserve now inc => observe st now inc
  | PDb o => mkP a (p_pend st) (Database_Model.db_step (e_cfg e) (p_db st) o)
  | PRestart now => restart st now
  end.
Definition p_run (st : pstate) (ops : list p_op) : pstate := fold_left p_step ops st.

(** The first start, with a new database. *)
Definition p_first (now : Z) : pstate := restart (mkP (e_new e) [] Database_Model.db_init) now.

End WithEnv.
