(** Model of the server's jail registry and of the execution of client commands:
    fail2ban/server/server.py (addJail … reloadJails, setUnbanIP, banned, status),
    fail2ban/server/transmitter.py, fail2ban/server/jails.py, and of jail.py / jailthread.py /
    filter.py as far as jails are created, started, stopped, reloaded and configured.

    A client command arrives as a (nested) list of strings.  Exceptions are values.  Everything
    the code calls outside this part is an explicit oracle (record [env]): whether the backend of
    a new jail can be set up, whether the database, a thread start, or the begin/end of a jail's
    reload raises, whether a regular expression or a value is accepted.

    Not modelled here: the wire format (Proto_Model), the actions of a jail (Actions_Model,
    CmdAct_Model; "addaction", "delaction" and "action" are answered by the oracle), the content
    of the ban list beyond the set of banned IDs (BanManager_Model, Actions_Model), the meaning of
    the ignore list (Ignore_Model), logging, signals, the lock of the server (the commands of all
    clients are executed by one thread, asyncserver.py 98-111). *)
From Verif Require Import Base.
Open Scope string_scope.
Open Scope list_scope.
Open Scope Z_scope.

(** A command, or a part of it: what the client sends is a list of strings and lists. *)
Inductive arg := T (s : string) | A (l : list arg).

(** Values a command returns. *)
Inductive val :=
| VNone | VTxt (s : string) | VNum (z : Z) | VBool (b : bool) | VLst (l : list string)
| VTable (l : list (list string)) | VArgs (l : list arg) | VMap (l : list (string * list string)).

(** Exceptions, as far as the model distinguishes them. *)
Inductive err :=
| EUnknown (n : string)   (* UnknownJailException *)
| EDuplicate (n : string) (* DuplicateJailException *)
| EReserved               (* add "--all" *)
| EInvalid                (* "Invalid command …" *)
| EIndex                  (* IndexError: the command is too short *)
| EType                   (* TypeError / AttributeError: a list where a string is needed, or vice versa *)
| EValue                  (* ValueError and the like: the value is not accepted *)
| EProgress               (* "Reload already in progress" *)
| EThread                 (* RuntimeError: the thread cannot be started *)
| EBackend                (* the backend of the jail cannot be set up *)
| EDb                     (* database error *)
| EReload                 (* an exception of filter.reload / actions.reload *).

Inductive res := Good (v : val) | Bad (e : err).

(** jailthread.py 68-72, 85-128: a thread was not started yet, runs, was asked to end, has ended. *)
Inductive tstate := TNew | TRun | TSig | TEnd.

Definition t_alive (t : tstate) : bool := match t with TRun | TSig => true | _ => false end.

(** What a jail is to this part of the code: jail.py 71-87, filter.py 60-131.
    [j_no] is the identity of the object (fresh for every object created).
    [j_idle]: one flag for filter.idle or actions.idle; the setter (jail.py 181-184) sets both.
    [j_rlogs]: filter._reload_logs, if the attribute exists.
    [j_opts]: the settings of the jail with one value, as set so far. *)
Record jail := MkJail {
  j_no : Z; j_backend : string;
  j_filter : tstate; j_actions : tstate; j_idle : bool;
  j_fail : list string; j_ignore : list string; j_ips : list string;
  j_logs : list string; j_rlogs : option (list string);
  j_opts : dict string string; j_bans : list string }.

Definition new_jail (no : Z) (backend : string) : jail :=
  MkJail no backend TNew TNew false [] [] [] [] None [] [].

(** What happens to jail objects, in order: jail number, and its name. *)
Inductive event := Created (no : Z) (n : string) | Started (no : Z) | Stopped (no : Z).

(** server.py 73-97, transmitter.py 44-46.  [s_reload]: __reload_state, the value says whether it
    is the jail (truthy) or None.  [s_db]: is there a database; it stays the same.
    [s_enabled]: the jails marked as enabled in the database. *)
Record srv := MkSrv {
  s_jails : dict string jail; s_reload : dict string bool; s_quiet : bool;
  s_next : Z; s_db : bool; s_enabled : list string; s_events : list event }.

Definition srv_init (db : bool) : srv := MkSrv [] [] false 1 db [] [].

(** The outside world during one client command; [true] = it works, [false] = it raises. *)
Record env := MkEnv {
  e_make : string -> string -> bool;         (* Jail(name, backend): set-up of the backend *)
  e_dbadd : string -> bool; e_dbdel : string -> bool;
  e_fstart : string -> bool; e_astart : string -> bool;
  e_begin : string -> bool; e_end : string -> bool;
  e_regex : string -> bool;
  e_ip : string -> bool;
  e_value : string -> string -> option string; (* setting, value -> what is stored *)
  e_int : string -> option Z;
  e_in : string -> string -> bool;           (* is the banned ID within this subnet / host name *)
  e_other : list arg -> res                  (* commands whose effects are outside this model *) }.

(** ** State updates *)
Definition set_jails (d : dict string jail) (s : srv) : srv :=
  MkSrv d (s_reload s) (s_quiet s) (s_next s) (s_db s) (s_enabled s) (s_events s).
Definition set_reload (d : dict string bool) (s : srv) : srv :=
  MkSrv (s_jails s) d (s_quiet s) (s_next s) (s_db s) (s_enabled s) (s_events s).
Definition set_quiet (q : bool) (s : srv) : srv :=
  MkSrv (s_jails s) (s_reload s) q (s_next s) (s_db s) (s_enabled s) (s_events s).
Definition set_next (n : Z) (s : srv) : srv :=
  MkSrv (s_jails s) (s_reload s) (s_quiet s) n (s_db s) (s_enabled s) (s_events s).
Definition set_enabled (l : list string) (s : srv) : srv :=
  MkSrv (s_jails s) (s_reload s) (s_quiet s) (s_next s) (s_db s) l (s_events s).
Definition note (e : event) (s : srv) : srv :=
  MkSrv (s_jails s) (s_reload s) (s_quiet s) (s_next s) (s_db s) (s_enabled s) (s_events s ++ [e]).

Definition put (n : string) (j : jail) (s : srv) : srv := set_jails (dset n j (s_jails s)) s.

Definition with_threads (f a : tstate) (j : jail) : jail :=
  MkJail (j_no j) (j_backend j) f a (j_idle j) (j_fail j) (j_ignore j) (j_ips j) (j_logs j) (j_rlogs j) (j_opts j) (j_bans j).
Definition with_idle (b : bool) (j : jail) : jail :=
  MkJail (j_no j) (j_backend j) (j_filter j) (j_actions j) b (j_fail j) (j_ignore j) (j_ips j) (j_logs j) (j_rlogs j) (j_opts j) (j_bans j).
Definition with_fail (l : list string) (j : jail) : jail :=
  MkJail (j_no j) (j_backend j) (j_filter j) (j_actions j) (j_idle j) l (j_ignore j) (j_ips j) (j_logs j) (j_rlogs j) (j_opts j) (j_bans j).
Definition with_ignore (l : list string) (j : jail) : jail :=
  MkJail (j_no j) (j_backend j) (j_filter j) (j_actions j) (j_idle j) (j_fail j) l (j_ips j) (j_logs j) (j_rlogs j) (j_opts j) (j_bans j).
Definition with_ips (l : list string) (j : jail) : jail :=
  MkJail (j_no j) (j_backend j) (j_filter j) (j_actions j) (j_idle j) (j_fail j) (j_ignore j) l (j_logs j) (j_rlogs j) (j_opts j) (j_bans j).
Definition with_logs (l : list string) (r : option (list string)) (j : jail) : jail :=
  MkJail (j_no j) (j_backend j) (j_filter j) (j_actions j) (j_idle j) (j_fail j) (j_ignore j) (j_ips j) l r (j_opts j) (j_bans j).
Definition with_opts (d : dict string string) (j : jail) : jail :=
  MkJail (j_no j) (j_backend j) (j_filter j) (j_actions j) (j_idle j) (j_fail j) (j_ignore j) (j_ips j) (j_logs j) (j_rlogs j) d (j_bans j).
Definition with_bans (l : list string) (j : jail) : jail :=
  MkJail (j_no j) (j_backend j) (j_filter j) (j_actions j) (j_idle j) (j_fail j) (j_ignore j) (j_ips j) (j_logs j) (j_rlogs j) (j_opts j) l.

Definition lower_ascii (c : ascii) : ascii :=
  let n := nat_of_ascii c in
  if (Nat.leb 65 n && Nat.leb n 90)%bool then ascii_of_nat (n + 32) else c.
Fixpoint lower (s : string) : string :=
  match s with EmptyString => EmptyString | String c r => String (lower_ascii c) (lower r) end.

(** Does a jail with this backend read log files: jail.py 92-174.  "systemd", perhaps with options
    in brackets, reads the journal; the others, and "auto", end with pyinotify or polling
    ("auto" never gets to systemd, since polling needs nothing that may be missing). *)
Definition reads_files (backend : string) : bool := negb (prefix "systemd" (lower backend)).

(** Python's list.remove / dict.pop of one element. *)
Fixpoint remove1 (x : string) (l : list string) : list string :=
  match l with [] => [] | y :: r => if eqb x y then r else y :: remove1 x r end.

(** ** Jail: jail.py 348-351, 317-327, 329-345 *)
Definition is_alive (j : jail) : bool := t_alive (j_filter j) || t_alive (j_actions j).

(** jail.start: the threads of filter and actions; threading.Thread.start raises RuntimeError for
    a thread that was started before.  restoreCurrentBans catches all exceptions (Database). *)
Definition jail_start (w : env) (n : string) (j : jail) : jail * option err :=
  match j_filter j with
  | TNew =>
      if e_fstart w n then
        let j1 := with_threads TRun (j_actions j) j in
        match j_actions j1 with
        | TNew => if e_astart w n then (with_threads TRun TRun j1, None) else (j1, Some EThread)
        | _ => (j1, Some EThread)
        end
      else (j, Some EThread)
  | _ => (j, Some EThread)
  end.

(** One thread under jail.stop(stop, join), jailthread.py 101-105, 114-121: the signal makes a
    running thread end; join waits for that (for a thread never started it raises RuntimeError,
    caught in jail.stop).  Simplified: stop and join raise nothing else, and a running thread that
    was not signalled is never waited for (server.py joins only after a signal). *)
Definition t_stop (stop join : bool) (t : tstate) : tstate :=
  let t1 := if stop then match t with TRun => TSig | x => x end else t in
  if join then match t1 with TSig => TEnd | x => x end else t1.

Definition jail_stop (stop join : bool) (j : jail) : jail :=
  with_threads (t_stop stop join (j_filter j)) (t_stop stop join (j_actions j)) j.

(** ** Server: server.py 237-349 *)

(** Jails.__getitem__, jails.py 76-83 *)
Definition lookup (s : srv) (n : string) : option jail := dget n (s_jails s).

(** Server.delJail, server.py 257-264. *)
Definition del_jail (w : env) (n : string) (stop join : bool) (s : srv) : srv * option err :=
  match lookup s n with
  | None => (s, Some (EUnknown n))
  | Some j =>
      let s1 := if join || is_alive j
                then let s' := put n (jail_stop stop join j) s in
                     if join then note (Stopped (j_no j)) s' else s'
                else s in
      if join then
        if s_db s1 then
          if e_dbdel w n
          then (set_jails (ddel n (s_jails s1)) (set_enabled (filter (fun m => negb (eqb n m)) (s_enabled s1)) s1), None)
          else (s1, Some EDb)
        else (set_jails (ddel n (s_jails s1)) s1, None)
      else (s1, None)
  end.

(** Jails.add, jails.py 48-71, with Jail.__init__, jail.py 71-128. *)
Definition jails_add (w : env) (n backend : string) (s : srv) : srv * option err :=
  if dmem n (s_jails s) then (s, Some (EDuplicate n))
  else if e_make w n backend
       then (note (Created (s_next s) n)
               (set_next (s_next s + 1) (put n (new_jail (s_next s) backend) s)), None)
       else (s, Some EBackend).

(** Database.addJail, database.py 396-410, called at server.py 254-255 *)
Definition db_add (w : env) (n : string) (s : srv) : srv * option err :=
  if s_db s then
    if e_dbadd w n
    then (set_enabled (if inb n (s_enabled s) then s_enabled s else s_enabled s ++ [n]) s, None)
    else (s, Some EDb)
  else (s, None).

(** Server.addJail, server.py 237-255. *)
Definition add_jail (w : env) (n backend : string) (s : srv) : srv * option err :=
  let '(s1, e1, addflg) :=
    match dget n (s_reload s), lookup s n with
    | Some true, Some j =>
        if eqb (j_backend j) backend
        then (set_reload (dset n false (s_reload s)) s, None, false)
        else match del_jail w n true true s with
             | (s', Some e) => (s', Some e, true)
             | (s', None) => (set_reload (ddel n (s_reload s')) s', None, true)
             end
    | _, _ => (s, None, true)
    end in
  match e1 with
  | Some e => (s1, Some e)
  | None =>
      let '(s2, e2) := if addflg then jails_add w n backend s1 else (s1, None) in
      match e2 with
      | Some e => (s2, Some e)
      | None => db_add w n s2
      end
  end.

(** Server.startJail, server.py 266-275. *)
Definition start_jail (w : env) (n : string) (s : srv) : srv * option err :=
  match lookup s n with
  | None => (s, Some (EUnknown n))
  | Some j =>
      let '(s1, j1, e) :=
        if negb (is_alive j)
        then let '(j', e) := jail_start w n j in
             (if is_alive j' then note (Started (j_no j)) (put n j' s) else put n j' s, j', e)
        else if dmem n (s_reload s) then (set_reload (ddel n (s_reload s)) s, j, None)
        else (s, j, None) in
      match e with
      | Some x => (s1, Some x)
      | None => (if j_idle j1 then put n (with_idle false j1) s1 else s1, None)
      end
  end.

(** Server.stopJail, server.py 277-279. *)
Definition stop_jail (w : env) (n : string) (s : srv) : srv * option err := del_jail w n true true s.

(** A loop over jail names that ends with the first exception. *)
Fixpoint each (f : string -> srv -> srv * option err) (l : list string) (s : srv) : srv * option err :=
  match l with
  | [] => (s, None)
  | n :: r => match f n s with
              | (s', None) => each f r s'
              | (s', Some e) => (s', Some e)
              end
  end.

(** Server.stopAllJail, server.py 281-289. *)
Definition stop_all (w : env) (s : srv) : srv * option err :=
  match each (fun n => del_jail w n true false) (dkeys (s_jails s)) s with
  | (s1, Some e) => (s1, Some e)
  | (s1, None) => each (fun n => del_jail w n false true) (dkeys (s_jails s1)) s1
  end.

(** ** Bans: actions.py 232-300, server.py 531-569.  A ban list is its IDs, in order. *)

(** Actions.removeBannedIP for one ID: what is left, how many were unbanned; None = ValueError.
    An ID that is not banned itself may be a subnet or host name: then everything banned in it is
    unbanned (actions.py 288-293; these are all banned, so the recursion removes each). *)
Definition unban1 (w : env) (ifexists : bool) (ip : string) (bans : list string) : list string * option Z :=
  if inb ip bans then (remove1 ip bans, Some 1)
  else let ips := filter (e_in w ip) bans in
       match ips with
       | [] => (bans, if ifexists then Some 0 else None)
       | _ => (filter (fun b => negb (e_in w ip b)) bans, Some (Z.of_nat (length ips)))
       end.

(** ... for a list of IDs, actions.py 265-276. *)
Fixpoint unban_list (w : env) (ifexists : bool) (ips : list string) (bans : list string) (cnt : Z) (missed : bool)
  : list string * option Z :=
  match ips with
  | [] => (bans, if missed then None else Some cnt)
  | ip :: r => match unban1 w ifexists ip bans with
               | (b', Some c) => unban_list w ifexists r b' (cnt + c) missed
               | (b', None) => unban_list w ifexists r b' cnt true
               end
  end.

(** Actions.removeBannedIP, actions.py 245-300; None: all (actions.py 262-263). *)
Definition remove_banned (w : env) (ifexists : bool) (ips : option (list string)) (bans : list string)
  : list string * option Z :=
  match ips with
  | None => ([], Some (Z.of_nat (length bans)))
  | Some l => unban_list w ifexists l bans 0 false
  end.

(** The loop of Server.setUnbanIP over jails, server.py 541-543. *)
Fixpoint unban_in (w : env) (ifexists : bool) (ips : option (list string)) (l : list string) (s : srv) (cnt : Z) : srv * res :=
  match l with
  | [] => (s, Good (VNum cnt))
  | n :: r =>
      match lookup s n with
      | None => (s, Bad (EUnknown n))
      | Some j =>
          match remove_banned w ifexists ips (j_bans j) with
          | (b', Some c) => unban_in w ifexists ips r (put n (with_bans b' j) s) (cnt + c)
          | (b', None) => (put n (with_bans b' j) s, Bad EValue)
          end
      end
  end.

(** Server.setUnbanIP, server.py 531-543. *)
Definition set_unban (w : env) (name : option string) (ips : option (list string)) (ifexists : bool) (s : srv) : srv * res :=
  match name with
  | Some n => match lookup s n with
              | None => (s, Bad (EUnknown n))
              | Some _ => unban_in w ifexists ips [n] s 0
              end
  | None => unban_in w true ips (dkeys (s_jails s)) s 0
  end.

(** Actions.addBannedIP, actions.py 232-243: simplified to "not yet banned IDs become banned". *)
Fixpoint ban_list (ips : list string) (bans : list string) (cnt : Z) : list string * Z :=
  match ips with
  | [] => (bans, cnt)
  | ip :: r => if inb ip bans then ban_list r bans cnt else ban_list r (bans ++ [ip]) (cnt + 1)
  end.

(** Server.banned without a jail, server.py 545-569, with Actions.getBanned, actions.py 211-217. *)
Definition banned_all (ids : list string) (s : srv) : val :=
  match ids with
  | [] => VMap (map (fun nj => (fst nj, j_bans (snd nj))) (s_jails s))
  | _ => VTable (map (fun ip => map fst (filter (fun nj => inb ip (j_bans (snd nj))) (s_jails s))) ids)
  end.

(** ** Reload: filter.py 138-155, server.py 296-349 *)

(** Filter.reload(begin=True): the lists are emptied, the log files are remembered. *)
Definition filter_begin (j : jail) : jail :=
  let j1 := with_ips [] (with_ignore [] (with_fail [] j)) in
  if reads_files (j_backend j) then with_logs (j_logs j1) (Some (j_logs j1)) j1 else j1.

(** Filter.reload(begin=False): log files not added again are removed. *)
Definition filter_end (j : jail) : jail :=
  match j_rlogs j with
  | None => j
  | Some old => with_logs (fold_left (fun l p => remove1 p l) old (j_logs j)) None j
  end.

(** The loop of the begin of a reload over the jails, server.py 325-331.  jail.filter.reload
    and jail.actions.reload are one step that works or raises. *)
Definition begin_one (w : env) (n : string) (s : srv) : srv * option err :=
  match lookup s n with
  | None => (s, None)
  | Some j =>
      let s1 := set_reload (dset n true (s_reload s)) (put n (with_idle true j) s) in
      if e_begin w n then (put n (filter_begin (with_idle true j)) s1, None)
      else (s1, Some EReload)
  end.

(** [x in opts] for the second parameter of "reload": a list, or a string (then: a substring). *)
Definition opt_in (x : string) (o : arg) : bool :=
  match o with
  | A l => existsb (fun a => match a with T s => eqb x s | A _ => false end) l
  | T s => match index 0 x s with Some _ => true | None => false end
  end.

Definition all_jails : string := "--all".

(** Server.reloadJails(name, opts, begin=True), server.py 296-332. *)
Definition reload_begin (w : env) (name : arg) (o : arg) (s : srv) : srv * option err :=
  match name with
  | A _ => (s, Some EType)
  | T n =>
      if (match s_reload s with [] => false | _ => true end)
         && (eqb n all_jails || match dget n (s_reload s) with Some true => true | _ => false end)
      then (s, Some EProgress)
      else
        let '(s1, e) :=
          if negb (eqb n all_jails) then
            match lookup s n with
            | None => if opt_in "--if-exists" o then (s, None) else (s, Some (EUnknown n))
            | Some _ =>
                let '(s', r) := if opt_in "--unban" o then set_unban w (Some n) None true s else (s, Good VNone) in
                match r with
                | Bad e => (s', Some e)
                | Good _ => if opt_in "--restart" o then stop_jail w n s' else (s', None)
                end
            end
          else
            let '(s', r) := if opt_in "--unban" o then set_unban w None None true s else (s, Good VNone) in
            match r with
            | Bad e => (s', Some e)
            | Good _ => if opt_in "--restart" o then stop_all w s' else (s', None)
            end in
        match e with
        | Some x => (s1, Some x)
        | None => each (begin_one w)
                    (filter (fun m => eqb n all_jails || eqb m n) (dkeys (s_jails s1))) s1
        end
  end.

(** The commit of one jail at the end of a reload, server.py 341-344. *)
Definition commit_one (w : env) (n : string) (s : srv) : srv * option err :=
  match lookup s n with
  | None => (s, None)
  | Some j => if e_end w n then (put n (filter_end j) s, None) else (s, Some EReload)
  end.

(** Server.reloadJails(…, begin=False), server.py 333-349. *)
Definition reload_end (w : env) (s : srv) : srv * option err :=
  let names := dkeys (s_jails s) in
  let dels := filter (fun n => dmem n (s_reload s)) names in
  match each (commit_one w) (filter (fun n => negb (dmem n (s_reload s))) names) s with
  | (s1, Some e) => (s1, Some e)
  | (s1, None) =>
      match each (fun n => del_jail w n true true) dels s1 with
      | (s2, Some e) => (s2, Some e)
      | (s2, None) => (set_reload [] s2, None)
      end
  end.

(** ** Settings of one jail: transmitter.py 156-409 *)

Fixpoint texts (l : list arg) : option (list string) :=
  match l with
  | [] => Some []
  | T s :: r => match texts r with Some x => Some (s :: x) | None => None end
  | A _ :: _ => None
  end.

(** Settings of the server itself: these words are taken before any jail name,
    transmitter.py 159-210. *)
Definition server_settings : list string :=
  ["loglevel"; "logtarget"; "syslogsocket"; "allowipv6"; "thread"; "dbfile"; "dbmaxmatches"; "dbpurgeage"]%string.

(** Settings of a jail that hold one value. *)
Definition value_settings : list string :=
  ["ignoreself"; "ignorecommand"; "ignorecache"; "logencoding"; "prefregex"; "usedns"; "findtime";
   "datepattern"; "logtimezone"; "maxmatches"; "maxretry"; "maxlines"; "bantime"]%string.
Definition is_value_setting (k : string) : bool :=
  inb k value_settings || prefix "bantime." k.

(** [del l[i]], a wrong index is only logged, filter.py 192-203 *)
Definition del_index (i : Z) (l : list string) : list string :=
  let n := Z.of_nat (length l) in
  let k := if i <? 0 then i + n else i in
  if (0 <=? k) && (k <? n) then firstn (Z.to_nat k) l ++ skipn (S (Z.to_nat k)) l else l.

(** Adding values one after the other, up to the first that is refused. *)
Fixpoint add_each (okv : string -> bool) (vs : list string) (l : list string) : list string * bool :=
  match vs with
  | [] => (l, true)
  | v :: r => if okv v then add_each okv r (l ++ [v]) else (l, false)
  end.

(** FileFilter.addLogPath / delLogPath, filter.py 1015-1051, server.py 374-382. *)
Definition add_log (p : string) (j : jail) : jail :=
  if negb (reads_files (j_backend j)) then j
  else if inb p (j_logs j) then
    match j_rlogs j with
    | Some old => if inb p old then with_logs (j_logs j) (Some (remove1 p old)) j else j
    | None => j
    end
  else with_logs (j_logs j ++ [p]) (j_rlogs j) j.

Definition del_log (p : string) (j : jail) : jail :=
  if negb (reads_files (j_backend j)) then j else with_logs (remove1 p (j_logs j)) (j_rlogs j) j.

(** A setter on one jail: the values, then the jail, are looked up; [f] yields the jail and
    whether it raised.  The answer is None in quiet mode. *)
Definition on_jail (n : string) (s : srv) (f : jail -> jail * option err) (ret : jail -> val) : srv * res :=
  match lookup s n with
  | None => (s, Bad (EUnknown n))
  | Some j => let '(j', e) := f j in
              (put n j' s, match e with Some x => Bad x | None => Good (if s_quiet s then VNone else ret j') end)
  end.

Definition set_key (w : env) (multiple : bool) (n k : string) (vs : list arg) (s : srv) : srv * res :=
  if eqb k "idle" then
    match vs with
    | [] => (s, Bad EIndex)
    | T v :: _ =>
        if eqb v "on" then on_jail n s (fun j => (with_idle true j, None)) (fun j => VBool (j_idle j))
        else if eqb v "off" then on_jail n s (fun j => (with_idle false j, None)) (fun j => VBool (j_idle j))
        else (s, Bad EValue)
    | A _ :: _ => (s, Bad EValue)
    end
  else if eqb k "addignoreip" then
    match texts vs with
    | None => (s, Bad EType)
    | Some l => if (match l with [] => true | _ => false end) && s_quiet s
                then (s, Good VNone)   (* nothing to add: the jail is not even looked up *)
                else on_jail n s (fun j => let '(x, ok) := add_each (e_ip w) l (j_ips j) in
                                      (with_ips x j, if ok then None else Some EValue))
                            (fun j => VLst (j_ips j))
    end
  else if eqb k "delignoreip" then
    match vs with
    | [] => (s, Bad EIndex)
    | T v :: _ => on_jail n s (fun j => if inb v (j_ips j) then (with_ips (remove1 v (j_ips j)) j, None) else (j, Some EValue))
                              (fun j => VLst (j_ips j))
    | A _ :: _ => (s, Bad EType)
    end
  else if eqb k "addlogpath" then
    match vs with
    | [] => (s, Bad EIndex)
    | [T p] => on_jail n s (fun j => (add_log p j, None)) (fun j => VLst (j_logs j))
    | [T p; T t] => if eqb (lower t) "tail" || eqb (lower t) "head"
                    then on_jail n s (fun j => (add_log p j, None)) (fun j => VLst (j_logs j))
                    else (s, Bad EValue)
    | [_; _] => (s, Bad EType)
    | [_] => (s, Bad EType)
    | _ => (s, Bad EValue)
    end
  else if eqb k "dellogpath" then
    match vs with
    | [] => (s, Bad EIndex)
    | T p :: _ => on_jail n s (fun j => (del_log p j, None)) (fun j => VLst (j_logs j))
    | A _ :: _ => (s, Bad EType)
    end
  else if eqb k "addfailregex" || eqb k "addignoreregex" then
    let isfail := eqb k "addfailregex" in
    let lst := match vs with
               | [] => inl EIndex
               | T v :: _ => if multiple then inl EType (* simplified: every character is taken as an expression *)
                             else inr [v]
               | A l :: _ => if multiple then match texts l with Some x => inr x | None => inl EType end else inl EType
               end in
    match lst with
    | inl e => (s, Bad e)
    | inr l =>
        let '(s', r) := on_jail n s
          (fun j => let '(x, ok) := add_each (e_regex w) l (if isfail then j_fail j else j_ignore j) in
                    (if isfail then with_fail x j else with_ignore x j, if ok then None else Some EValue))
          (fun j => VLst (if isfail then j_fail j else j_ignore j)) in
        (s', match r with Good _ => if multiple then Good (VBool true) else r | Bad _ => r end)
    end
  else if eqb k "delfailregex" || eqb k "delignoreregex" then
    let isfail := eqb k "delfailregex" in
    match vs with
    | [] => (s, Bad EIndex)
    | T v :: _ =>
        match e_int w v with
        | None => (s, Bad EValue)
        | Some i => on_jail n s
            (fun j => (if isfail then with_fail (del_index i (j_fail j)) j else with_ignore (del_index i (j_ignore j)) j, None))
            (fun j => VLst (if isfail then j_fail j else j_ignore j))
        end
    | A _ :: _ => (s, Bad EType)
    end
  else if is_value_setting k then
    match vs with
    | [] => (s, Bad EIndex)
    | T v :: _ =>
        match e_value w k v with
        | None => (s, Bad EValue)
        | Some x => on_jail n s (fun j => (with_opts (dset k x (j_opts j)) j, None)) (fun _ => VTxt x)
        end
    | A _ :: _ => (s, Bad EType)
    end
  else if eqb k "banip" then
    match texts vs with
    | None => (s, Bad EType)
    | Some l =>
        match lookup s n with
        | None => (s, Bad (EUnknown n))
        | Some j => let '(b, c) := ban_list l (j_bans j) 0 in (put n (with_bans b j) s, Good (VNum c))
        end
    end
  else if eqb k "unbanip" then
    match vs with
    | [] => (s, Bad EIndex)
    | x :: r =>
        let report := match x with T t => eqb t "--report-absent" | A _ => false end in
        match texts (if report then r else vs) with
        | None => (s, Bad EType)
        | Some l => set_unban w (Some n) (Some l) (negb report) s
        end
    end
  else if eqb k "attempt" then
    (* transmitter.py 344-347: in quiet mode nothing is done *)
    if s_quiet s then (s, Good VNone)
    else match lookup s n with None => (s, Bad (EUnknown n)) | Some _ => (s, e_other w (T n :: T k :: vs)) end
  else if inb k ["addjournalmatch"; "deljournalmatch"; "addaction"; "delaction"; "action"]%string then
    match lookup s n with None => (s, Bad (EUnknown n)) | Some _ => (s, e_other w (T n :: T k :: vs)) end
  else (s, Bad EInvalid).

(** Transmitter.__commandSet, transmitter.py 156-409. *)
Definition command_set (w : env) (multiple : bool) (args : list arg) (s : srv) : srv * res :=
  match args with
  | [] => (s, Bad EIndex)
  | T n :: r =>
      if inb n server_settings then (s, match r with [] => Bad EIndex | _ => e_other w args end)
      else match r with
           | [] => (s, Bad EIndex)
           | T k :: vs => set_key w multiple n k vs s
           | A _ :: _ => (s, Bad EType)
           end
  | A _ :: r => (s, match r with [] => Bad EIndex | _ => Bad EType end)
  end.

(** Transmitter.__commandGet, transmitter.py 411-511. *)
Definition command_get (w : env) (args : list arg) (s : srv) : res :=
  match args with
  | [] => Bad EIndex
  | T n :: r =>
      if inb n server_settings then e_other w args
      else match r with
           | [] => Bad EIndex
           | A _ :: _ => Bad EType
           | T k :: vs =>
               match lookup s n with
               | None => if is_value_setting k || inb k ["banned"; "logpath"; "ignoreip"; "failregex"; "ignoreregex";
                              "journalmatch"; "banip"; "actions"; "action"; "actionproperties"; "actionmethods"]%string
                         then Bad (EUnknown n) else Bad EInvalid
               | Some j =>
                   if eqb k "banned" then
                     match texts vs with
                     | None => Bad EType
                     | Some [] => Good (VLst (j_bans j))
                     | Some [ip] => Good (VNum (if inb ip (j_bans j) then 1 else 0))
                     | Some ids => Good (VLst (map (fun ip => if inb ip (j_bans j) then "1" else "0")%string ids))
                     end
                   else if eqb k "logpath" then Good (VLst (if reads_files (j_backend j) then j_logs j else []))
                   else if eqb k "ignoreip" then Good (VLst (j_ips j))
                   else if eqb k "failregex" then Good (VLst (j_fail j))
                   else if eqb k "ignoreregex" then Good (VLst (j_ignore j))
                   else if eqb k "banip" then Good (VLst (j_bans j))
                   else if is_value_setting k then
                     match dget k (j_opts j) with Some v => Good (VTxt v) | None => e_other w args end
                   else e_other w args
               end
           end
  | A _ :: r => match r with [] => Bad EIndex | _ => Bad EType end
  end.

(** ** Commands: transmitter.py 54-154 *)

Definition done (p : srv * option err) (v : val) : srv * res :=
  match p with (s, None) => (s, Good v) | (s, Some e) => (s, Bad e) end.

(** The loop over the commands of a stream, transmitter.py 109-110, 131-132: an exception ends it. *)
Definition run_stream (h : arg -> srv -> srv * res) : list arg -> srv -> srv * option err :=
  fix go (cs : list arg) (s : srv) {struct cs} : srv * option err :=
    match cs with
    | [] => (s, None)
    | c :: r => match h c s with
                | (s', Good _) => go r s'
                | (s', Bad e) => (s', Some e)
                end
    end.

Section Handler.
  Variable w : env.

  (** Transmitter.__commandHandler, transmitter.py 72-154.  "reload" and "server-stream" execute
      the commands in them by the same function, up to the first exception; their [finally]
      clauses run in any case.  ("stop" alone, the end of the server: its jails are stopped,
      server.py 190-234; the rest of it is not modelled.) *)
  Fixpoint handler (c : arg) (s : srv) {struct c} : srv * res :=
    match c with
    | T t => (s, Bad (if eqb t "" then EIndex else EInvalid))
    | A [] => (s, Bad EIndex)
    | A (A _ :: _) => (s, Bad EInvalid)
    | A (T name :: args) =>
        if eqb name "ping" then (s, Good (VTxt "pong"))
        else if eqb name "add" then
          match args with
          | [] => (s, Bad EIndex)
          | T n :: r =>
              if eqb n all_jails then (s, Bad EReserved)
              else match r with
                   | [] => done (add_jail w n "auto" s) (VTxt n)
                   | T b :: _ => done (add_jail w n b s) (VTxt n)
                   | A _ :: _ => (s, Bad EType)  (* simplified: during a reload the old jail would be removed first *)
                   end
          | A _ :: _ => (s, Bad EType)
          end
        else if eqb name "multi-set" then command_set w true args s
        else if eqb name "set" then command_set w false args s
        else if eqb name "start" then
          match args with
          | [] => (s, Bad EIndex)
          | T n :: _ => done (start_jail w n s) VNone
          | A _ :: _ => (s, Bad EType)
          end
        else if eqb name "stop" then
          match args with
          | [] => done (stop_all w s) VNone
          | T n :: _ => if eqb n all_jails then done (stop_all w s) VNone else done (stop_jail w n s) VNone
          | A _ :: _ => (s, Bad EType)
          end
        else if eqb name "reload" then
          match args with
          | n :: o :: rest =>
              let '(s2, e) :=
                match reload_begin w n o (set_quiet true s) with
                | (s1, Some e) => (s1, Some e)
                | (s1, None) =>
                    match rest with
                    | [] => (s1, Some EIndex)
                    | T t :: _ => (s1, if eqb t "" then None else Some EInvalid)
                    | A cs :: _ => run_stream handler cs s1
                    end
                end in
              match reload_end w (set_quiet false s2) with
              | (s3, Some e') => (s3, Bad e')
              | (s3, None) => (s3, match e with Some x => Bad x | None => Good (VTxt "OK") end)
              end
          | _ => (set_quiet false s, Bad EType)
          end
        else if eqb name "unban" && negb (match args with [] => true | _ => false end) then
          if match args with [T t] => eqb t all_jails | _ => false end
          then set_unban w None None true s
          else match texts args with
               | None => (s, Bad EType)
               | Some l => set_unban w None (Some l) true s
               end
        else if eqb name "banned" then
          (s, match texts args with None => Bad EType | Some l => Good (banned_all l s) end)
        else if eqb name "echo" then (s, Good (VArgs args))
        else if eqb name "server-status" then (s, Good (VTxt "Server ready"))
        else if eqb name "server-stream" then
          match args with
          | [] => (set_quiet false s, Bad EIndex)
          | T t :: _ => (set_quiet false s, if eqb t "" then Good VNone else Bad EInvalid)
          | A cs :: _ =>
              let '(s', e) := run_stream handler cs (set_quiet true s) in
              (set_quiet false s', match e with Some x => Bad x | None => Good VNone end)
          end
        else if eqb name "get" then (s, command_get w args s)
        else if eqb name "status" && match args with [] => true | _ => false end
             then (s, Good (VLst (dkeys (s_jails s))))   (* sorted; the order is not modelled *)
        else if inb name ["sleep"; "flushlogs"; "status"; "stats"; "statistic"; "statistics"; "version"; "config-error"]%string
             then (s, e_other w (T name :: args))
        else (s, Bad EInvalid)
    end.

End Handler.

(** A whole stream, as executed by "reload" and "server-stream". *)
Definition stream (w : env) (cs : list arg) (s : srv) : srv * option err := run_stream (handler w) cs s.

(** Transmitter.proceed, transmitter.py 54-65: the answer is (0, value) or (1, exception). *)
Definition proceed (w : env) (c : arg) (s : srv) : srv * (Z * res) :=
  match handler w c s with
  | (s', Good v) => (s', (0, Good v))
  | (s', Bad e) => (s', (1, Bad e))
  end.

(** ** Histories: commands of clients, threads that end by themselves (an exception, jailthread.py
    75-90; [true] = the filter), a filter that goes idle after too many errors (filter.py 753-760),
    and bans that come and go by themselves. *)
Inductive op :=
| Cmd (w : env) (c : arg)
| Dies (n : string) (flt : bool)
| GoesIdle (n : string)
| Bans (n ip : string)
| Unbans (n ip : string).

Definition sv_step (s : srv) (o : op) : srv * option (Z * res) :=
  match o with
  | Cmd w c => let '(s', a) := proceed w c s in (s', Some a)
  | Dies n flt =>
      (match lookup s n with
       | None => s
       | Some j => let die t := match t with TRun | TSig => TEnd | x => x end in
                   put n (with_threads (if flt then die (j_filter j) else j_filter j)
                                       (if flt then j_actions j else die (j_actions j)) j) s
       end, None)
  | GoesIdle n => (match lookup s n with None => s | Some j => put n (with_idle true j) s end, None)
  | Bans n ip => (match lookup s n with
                  | None => s
                  | Some j => put n (with_bans (if inb ip (j_bans j) then j_bans j else j_bans j ++ [ip]) j) s
                  end, None)
  | Unbans n ip => (match lookup s n with None => s | Some j => put n (with_bans (remove1 ip (j_bans j)) j) s end, None)
  end.

Definition sv_run (s : srv) (ops : list op) : srv := fold_left (fun s o => fst (sv_step s o)) ops s.
