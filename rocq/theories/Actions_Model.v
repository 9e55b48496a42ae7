(** Model of fail2ban/server/actions.py (class Actions).

    Calls that leave the component (methods of an action, the observer, the database) are
    recorded in a trace together with the answer they got.  The answer comes from an
    oracle, any function of the calls made so far: it says whether the call raised, which
    truth value it returned, and whether the action found its environment broken and
    raised the jail's ban epoch (action.py:901-907).

    Simplifications: the methods are run to completion one after another (the interleaving
    with a concurrent command is treated by [ban_begin]/[ban_actions] below); logging is
    left out; an ID is its canonical text; the statistics of [status] are not modelled. *)
From Verif Require Import Base Ticket_Model BanManager_Model.

(** What matters about an action object. *)
Record action := mkAct {
  ac_norestored : bool;          (* attribute norestored, actions.py:510 *)
  ac_flush      : bool;          (* offers a usable flush, actions.py:655 *)
  ac_prolong    : bool;          (* _prolongable, actions.py:608 *)
  ac_reload     : bool;          (* has a method reload, actions.py:137 *)
  ac_clear      : bool;          (* has clearAllParams, actions.py:139 *)
  ac_check      : bool;          (* has consistencyCheck, actions.py:547, 664 *)
  ac_epoch      : option Z;      (* banEpoch; None: no such attribute (ActionBase) *)
  ac_obj        : nat            (* identity of the object *)
}.

Inductive call :=
| CStart (name : string) | CStop (name : string)
| CBan (name id : string) | CReban (name id : string) | CProlong (name id : string)
| CUnban (name id : string)
| CFlush (name : string) | CCheck (name : string) | CReload (name : string)
| CObserver (id : string)            (* Observers.Main.add('banFound', ...), actions.py:505 *)
| CDbDel (id : option string).       (* database.delBan(jail[, ip]) *)

Record resp := mkResp { r_raise : bool; r_true : bool; r_bump : bool }.
Definition trace := list (call * resp).
Definition oracle := trace -> call -> resp.

Record acts := mkActs {
  as_actions : dict string action;    (* _actions *)
  as_bm      : banmgr;                (* banManager *)
  as_epoch   : Z;                     (* banEpoch *)
  as_last    : Z;                     (* __lastConsistencyCheckTM *)
  as_queue   : list ticket;           (* the jail's queue of failure tickets *)
  as_reload  : option (dict string unit);  (* _reload_actions, if the attribute exists *)
  as_db      : bool;                  (* jail.database is not None *)
  as_trace   : trace
}.

Definition with_actions v s := mkActs v (as_bm s) (as_epoch s) (as_last s) (as_queue s) (as_reload s) (as_db s) (as_trace s).
Definition with_bm v s := mkActs (as_actions s) v (as_epoch s) (as_last s) (as_queue s) (as_reload s) (as_db s) (as_trace s).
Definition with_aepoch v s := mkActs (as_actions s) (as_bm s) v (as_last s) (as_queue s) (as_reload s) (as_db s) (as_trace s).
Definition with_last v s := mkActs (as_actions s) (as_bm s) (as_epoch s) v (as_queue s) (as_reload s) (as_db s) (as_trace s).
Definition with_queue v s := mkActs (as_actions s) (as_bm s) (as_epoch s) (as_last s) v (as_reload s) (as_db s) (as_trace s).
Definition with_reload v s := mkActs (as_actions s) (as_bm s) (as_epoch s) (as_last s) (as_queue s) v (as_db s) (as_trace s).
Definition with_trace v s := mkActs (as_actions s) (as_bm s) (as_epoch s) (as_last s) (as_queue s) (as_reload s) (as_db s) v.

Definition with_acepoch e a :=
  mkAct (ac_norestored a) (ac_flush a) (ac_prolong a) (ac_reload a) (ac_clear a) (ac_check a) e (ac_obj a).

(** actions.py:78-90 *)
Definition as_init (db : bool) : acts := mkActs [] bm_init 0 0 [] None db [].

Definition banPrecedence : nat := 10.      (* actions.py:88 *)
Definition unbanMaxCount : nat := 20.      (* actions.py:90 *)

(** A result: [None] is an exception that leaves the method. *)
Section WithOracle.
Context (orc : oracle).

(** A call to the outside that is not a method of an action. *)
Definition emit (c : call) (s : acts) : acts * resp :=
  let r := orc (as_trace s) c in (with_trace (as_trace s ++ [(c, r)]) s, r).

(** A call of a method of action [name]; action.py:901-907 invalidateBanEpoch may happen
    inside it. *)
Definition act_call (name : string) (c : call) (s : acts) : acts * resp :=
  let '(s, r) := emit c s in
  let s := if r_bump r then
             match dget name (as_actions s) with
             | Some a =>
                 let e := as_epoch s + 1 in
                 with_aepoch e (with_actions (dset name (with_acepoch (Some e) a) (as_actions s)) s)
             | None => s
             end
           else s in
  (s, r).

(** Calls made one after another, whatever they raise: the loops [for name, action in
    ...: try: action.m() except Exception: log]. *)
Fixpoint call_all (mk : string -> call) (names : list string) (s : acts) : acts :=
  match names with
  | [] => s
  | n :: r => call_all mk r (fst (act_call n (mk n) s))
  end.

(** actions.py:520-523, 592-595: mark the stored ticket as banned.  Here the object marked
    is the one in the ban list, if the ID is still there. *)
Definition mark_banned (id : string) (s : acts) : acts :=
  match dget id (bm_list (as_bm s)) with
  | Some t =>
      let t := with_banned true t in
      let t := if as_epoch s =? 0 then t else with_epoch (as_epoch s) t in
      with_bm (bm_with_list (dset id t (bm_list (as_bm s))) (as_bm s)) s
  | None => s
  end.

(** actions.py:508-512: the actions asked to ban a ticket *)
Definition asked (restored : bool) (l : dict string action) : list string :=
  map fst (filter (fun kv => negb (restored && ac_norestored (snd kv))) l).

(** actions.py:501-505, first part of a new ban: enter it and tell the observer *)
Definition ban_begin (tk : ticket) (now : Z) (s : acts) : acts * add_result :=
  let '(bm, r) := add_ban (as_bm s) (with_isban true tk) now in
  let s := with_bm bm s in
  match r with
  | AAdded => ((if t_restored tk then s else fst (emit (CObserver (t_id tk)) s)), r)
  | _ => (s, r)
  end.

(** actions.py:507-523, second part: run the ban actions and mark the ticket *)
Definition ban_actions (tk : ticket) (s : acts) : acts :=
  mark_banned (t_id tk) (call_all (fun n => CBan n (t_id tk)) (asked (t_restored tk) (as_actions s)) s).

(** actions.py:580-591: stops at the first action that raises *)
Fixpoint reban_loop (id : string) (names : list string) (s : acts) : acts * bool :=
  match names with
  | [] => (s, true)
  | n :: r => let '(s, rs) := act_call n (CReban n id) s in
              if r_raise rs then (s, false) else reban_loop id r s
  end.

(** actions.py:564-596 __reBan(ticket, actions) *)
Definition reban (id : string) (names : list string) (s : acts) : acts * nat :=
  let names := match names with [] => dkeys (as_actions s) | _ => names end in
  match reban_loop id names s with
  | (s, true) => (mark_banned id s, 1%nat)
  | (s, false) => (s, 0%nat)
  end.

(** actions.py:546-548: not guarded, an exception leaves the method *)
Fixpoint check_loop (names : list string) (s : acts) : acts * bool :=
  match names with
  | [] => (s, true)
  | n :: r => let '(s, rs) := act_call n (CCheck n) s in
              if r_raise rs then (s, false) else check_loop r s
  end.
Definition checkers (l : dict string action) : list string :=
  map fst (filter (fun kv => ac_check (snd kv)) l).

(** actions.py:551-553; [None]: some action has no banEpoch (AttributeError) *)
Fixpoint reban_acts (epoch : Z) (l : dict string action) : option (list string) :=
  match l with
  | [] => Some []
  | (n, a) :: r =>
      match ac_epoch a with
      | None => None
      | Some e => match reban_acts epoch r with
                  | None => None
                  | Some k => Some (if e >? epoch then n :: k else k)
                  end
      end
  end.

(** actions.py:494-556: one ticket of __checkBan; [ra] is [rebanacts] ([] = None or empty) *)
Definition check_ban_one (tk : ticket) (now : Z) (ra : list string) (s : acts)
  : acts * option (nat * list string) :=
  match ban_begin tk now s with
  | (s, AAdded) => (ban_actions tk s, Some (1%nat, ra))
  | (s, AExpired) => (s, Some (0%nat, ra))
  | (s, _) =>
      match dget (t_id tk) (bm_list (as_bm s)) with
      | None => (s, None)                                   (* not reachable *)
      | Some b =>
          if t_banned b then
            let diftm := t_time tk - t_time b in
            let check := (t_epoch b =? as_epoch s) && (diftm >? 3)
                         && match ra with [] => true | _ => false end && (now >? as_last s + 3) in
            let '(s, ok) := if check then check_loop (checkers (as_actions s)) (with_last now s)
                            else (s, true) in
            if ok then
              if t_epoch b <? as_epoch s then
                match (match ra with [] => reban_acts (t_epoch b) (as_actions s) | _ => Some ra end) with
                | None => (s, None)
                | Some ra => let '(s, c) := reban (t_id tk) ra s in (s, Some (c, ra))
                end
              else (s, Some (0%nat, ra))
            else (s, None)
          else let '(s, c) := reban (t_id tk) [] s in (s, Some (c, ra))
      end
  end.

(** actions.py:479-562 __checkBan(tickets), tickets given (addBannedIP) *)
Fixpoint check_ban_list (tks : list ticket) (now : Z) (ra : list string) (cnt : nat) (s : acts)
  : acts * option nat :=
  match tks with
  | [] => (s, Some cnt)
  | tk :: r =>
      match check_ban_one tk now ra s with
      | (s, None) => (s, None)
      | (s, Some (c, ra)) => check_ban_list r now ra (cnt + c) s
      end
  end.

(** actions.py:469-477, 491-492: tickets taken one by one from the jail's queue, at most
    [n].  A ticket is taken only when the previous one has been dealt with. *)
Fixpoint check_ban_queue (n : nat) (now : Z) (ra : list string) (cnt : nat) (s : acts)
  : acts * option nat :=
  match n with
  | O => (s, Some cnt)
  | S n' =>
      match as_queue s with
      | [] => (s, Some cnt)
      | tk :: q =>
          match check_ban_one tk now ra (with_queue q s) with
          | (s, None) => (s, None)
          | (s, Some (c, ra)) => check_ban_queue n' now ra (cnt + c) s
          end
      end
  end.
Definition check_ban (now : Z) (s : acts) : acts * option nat :=
  check_ban_queue banPrecedence now [] 0 s.

(** actions.py:232-243 addBannedIP(ip or list).  An empty list is an always true
    generator, so nothing is taken from the queue. *)
Definition add_banned_ip (ids : list string) (now : Z) (s : acts) : acts * option nat :=
  check_ban_list (map (fun id => with_isban true (new_ticket id now [] 0)) ids) now [] 0 s.

(** actions.py:689-718 __unBan(ticket, actions) *)
Definition unban_one (names : list string) (t : ticket) (s : acts) : acts :=
  call_all (fun n => CUnban n (t_id t)) names s.

Fixpoint unban_each (names : list string) (l : list ticket) (s : acts) : acts :=
  match l with
  | [] => s
  | t :: r => unban_each names r (unban_one names t s)
  end.

(** actions.py:621-633 __checkUnBan(maxCount) *)
Definition check_unban (now : Z) (maxCount : nat) (s : acts) : acts * nat :=
  let '(bm, l) := unban_list (as_bm s) now maxCount in
  (unban_each (dkeys (as_actions s)) l (with_bm bm s), length l).

(** actions.py:650-674: ask the actions to flush; collects those that must unban ticket by
    ticket.  [None]: the consistency check raised. *)
Fixpoint flush_loop (l : dict string action) (s : acts) : acts * option (list string) :=
  match l with
  | [] => (s, Some [])
  | (n, a) :: r =>
      let keep s := match flush_loop r s with
                    | (s, Some k) => (s, Some (n :: k))
                    | (s, None) => (s, None)
                    end in
      if ac_flush a then
        let '(s, rs) := act_call n (CFlush n) s in
        if r_raise rs then
          if ac_check a then
            let '(s, rc) := act_call n (CCheck n) s in
            if r_raise rc then (s, None) else flush_loop r s
          else keep s
        else if r_true rs then flush_loop r s
        else keep s
      else keep s
  end.

(** actions.py:635-687 __flushBan(db, actions, stop).  [only] = the given actions: then the
    ban list stays.  The flag [stop] only steers the repair inside the check. *)
Definition flush_ban (db : bool) (only : option (dict string action)) (s : acts) : acts * option nat :=
  let '(s, lst) := match only with
                   | None => let '(bm, l) := flush_ban_list (as_bm s) in (with_bm bm s, l)
                   | Some _ => (s, dvals (bm_list (as_bm s)))
                   end in
  match flush_loop (match only with Some d => d | None => as_actions s end) s with
  | (s, None) => (s, None)
  | (s, Some names) =>
      let s := if db && as_db s then fst (emit (CDbDel None) s) else s in
      (unban_each names lst s, Some (length lst))
  end.

(** actions.py:303-316 stopActions(actions), on the given names in reverse order *)
Fixpoint stop_loop (names : list string) (s : acts) : acts :=
  match names with
  | [] => s
  | n :: r => let s := fst (act_call n (CStop n) s) in
              stop_loop r (with_actions (ddel n (as_actions s)) s)
  end.
Definition stop_actions (names : list string) (s : acts) : acts := stop_loop (rev names) s.

(** actions.py:277-300: one ID.  [sub] is the test [ipa.contains] when the argument is a
    subnet or host name, None when it is a single address. *)
Inductive unban_res := UCount (n : nat) | UMissing (ids : list string) | URaise.

Definition remove_one (id : string) (db ifexists : bool) (s : acts) : acts * unban_res :=
  let s := if db && as_db s then fst (emit (CDbDel (Some id)) s) else s in
  match pop_ticket (as_bm s) id with
  | (bm, Some t) => (unban_one (dkeys (as_actions s)) t (with_bm bm s), UCount 1)
  | (_, None) => (s, if ifexists then UCount 0 else UMissing [id])
  end.

(** actions.py:265-276: a list of IDs *)
Fixpoint remove_list (one : string -> acts -> acts * unban_res) (ifexists : bool)
    (ids missed : list string) (cnt : nat) (s : acts) : acts * unban_res :=
  match ids with
  | [] => (s, match missed with [] => UCount cnt | _ => UMissing missed end)
  | i :: r =>
      match one i s with
      | (s, UCount c) => remove_list one ifexists r missed (cnt + c) s
      | (s, UMissing _) => remove_list one ifexists r (if ifexists then missed else missed ++ [i]) cnt s
      | (s, URaise) => (s, URaise)
      end
  end.

(** actions.py:277-300 with the subnet case.  The recursive call gets IDs that are in the
    ban list, so their own subnet case is not reached. *)
Definition remove_single (sub : string -> option (string -> bool)) (db ifexists : bool)
    (id : string) (s : acts) : acts * unban_res :=
  let s0 := if db && as_db s then fst (emit (CDbDel (Some id)) s) else s in
  match dget id (bm_list (as_bm s0)), sub id with
  | None, Some contains =>
      match filter contains (ban_list (as_bm s0)) with
      | [] => (s0, if ifexists then UCount 0 else UMissing [id])
      | ips => remove_list (fun i => remove_one i db ifexists) ifexists ips [] 0 s0
      end
  | _, _ => remove_one id db ifexists s
  end.

Definition remove_banned (sub : string -> option (string -> bool)) (ids : list string) (db ifexists : bool)
    (s : acts) : acts * unban_res :=
  remove_list (remove_single sub db ifexists) ifexists ids [] 0 s.

(** actions.py:598-619 _prolongBan(ticket) *)
Definition prolong_ban (t : ticket) (s : acts) : acts :=
  if dmem (t_id t) (bm_list (as_bm s)) then
    call_all (fun n => CProlong n (t_id t))
      (map fst (filter (fun kv => negb (t_restored t && ac_norestored (snd kv)) && ac_prolong (snd kv))
                       (as_actions s))) s
  else s.

(** actions.py:347-360: one round of the main loop that is neither idle nor stopping.
    [ready]: what wait_for returned.  [None]: the round raised (actions.py:361).
    Result: new [cnt], number of bans in the round, limit of the expiry check if made. *)
Definition main_round (ready : bool) (now : Z) (cnt : nat) (s : acts)
  : acts * option (nat * nat * option nat) :=
  match (if ready then check_ban now s else (s, Some 0%nat)) with
  | (s, None) => (s, None)
  | (s, Some bancnt) =>
      let cnt := (cnt + bancnt)%nat in
      if Nat.eqb bancnt 0 || Nat.leb banPrecedence cnt then
        let b2 := (bancnt * 2)%nat in
        let lim := if Nat.ltb 0 b2 && Nat.ltb b2 unbanMaxCount then b2 else unbanMaxCount in
        (fst (check_unban now lim s), Some (0%nat, bancnt, Some lim))
      else (s, Some (cnt, bancnt, None))
  end.

(** actions.py:366-367: end of the thread.  An exception of __flushBan skips stopActions. *)
Definition thread_end (s : acts) : acts * bool :=
  match flush_ban false None s with
  | (s, Some _) => (stop_actions (dkeys (as_actions s)) s, true)
  | (s, None) => (s, false)
  end.

(** actions.py:331-337: start of the thread *)
Definition thread_start (s : acts) : acts := call_all CStart (dkeys (as_actions s)) s.

(** actions.py:105-149 add(name, ..., reload).  [new] is the object that the constructor
    makes.  [None]: ValueError, or AttributeError of a missing _reload_actions. *)
Definition add_action (name : string) (new : action) (reload : bool) (s : acts) : acts * bool :=
  match dget name (as_actions s) with
  | Some a =>
      if negb reload then (s, false)
      else if ac_reload a then
        if ac_clear a then
          match as_reload s with
          | Some d => (with_reload (Some (dset name tt d)) s, true)
          | None => (s, false)
          end
        else (s, true)
      else (with_actions (dset name new (as_actions s)) s, true)
  | None => (with_actions (dset name new (as_actions s)) s, true)
  end.

(** actions.py:151-155 reload(begin=True) *)
Definition reload_begin (s : acts) : acts := with_reload (Some []) s.

(** actions.py:158-161: an exception ends it *)
Fixpoint reload_loop (names : list string) (s : acts) : acts * bool :=
  match names with
  | [] => (s, true)
  | n :: r =>
      if dmem n (as_actions s) then
        let '(s, rs) := act_call n (CReload n) s in
        if r_raise rs then (s, false) else reload_loop r s
      else reload_loop r s
  end.

(** actions.py:156-170 reload(begin=False) *)
Definition reload_end (s : acts) : acts * bool :=
  match as_reload s with
  | None => (s, true)
  | Some d =>
      match reload_loop (dkeys d) s with
      | (s, false) => (s, false)
      | (s, true) =>
          let del := filter (fun kv => negb (dmem (fst kv) d)) (as_actions s) in
          match del with
          | [] => (with_reload None s, true)
          | _ => match flush_ban false (Some del) s with
                 | (s, None) => (s, false)
                 | (s, Some _) => (with_reload None (stop_actions (dkeys del) s), true)
                 end
          end
      end
  end.

(** Operations of a running jail. *)
Inductive as_op :=
| OPut (tk : ticket)                               (* jail.putFailTicket, jail.py:205-210 *)
| ORound (ready : bool) (now : Z) (cnt : nat)      (* one round of the main loop *)
| OBanIP (ids : list string) (now : Z)             (* set <JAIL> banip *)
| OUnbanIP (ids : list string) (db ifexists : bool)
| OFlush (db : bool)                               (* removeBannedIP(None) *)
| OProlong (t : ticket)                            (* observer *)
| OMutate (id : string) (bt : Z)                   (* observer: setBanTime on the stored ticket *)
| OSetTime (v : Z)                                 (* set <JAIL> bantime *)
| OStop.                                           (* end of the thread *)

Definition as_step (sub : string -> option (string -> bool)) (s : acts) (o : as_op) : acts :=
  match o with
  | OPut tk => with_queue (as_queue s ++ [tk]) s
  | ORound ready now cnt => fst (main_round ready now cnt s)
  | OBanIP ids now => fst (add_banned_ip ids now s)
  | OUnbanIP ids db ifexists => fst (remove_banned sub ids db ifexists s)
  | OFlush db => fst (flush_ban db None s)
  | OProlong t => prolong_ban t s
  | OMutate id bt => with_bm (fst (bm_step (as_bm s) (BMutate id bt))) s
  | OSetTime v => with_bm (set_ban_time (as_bm s) v) s
  | OStop => fst (thread_end s)
  end.

Definition as_run sub (s : acts) (ops : list as_op) : acts := fold_left (as_step sub) ops s.

End WithOracle.
