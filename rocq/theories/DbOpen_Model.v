(** Model of the opening of the database, fail2ban/server/database.py:166-393: creation, upgrade and repair.

    The disk is seen between the commits of SQLite: [o_trace] has each state it went through, so that a crash leaves
    one of them (a crash within a commit is a damaged file, [Corrupt], for the next start).  Rows are those of
    Database_Model; indices, temporary tables and the NULL of a path or an ID are left out.  The name of the
    backup is the one of this process (database.py:260-266). *)
From Verif Require Import Base Ticket_Model Database_Model.
Local Open Scope string_scope.
Local Open Scope list_scope.
Local Open Scope Z_scope.

(** A ban before version 3: without ban time and ban count. *)
Record old_ban := mkOld { o_jail : string; o_ip : string; o_time : Z; o_fail : Z; o_matches : option (list string) }.
Inductive bans_table := BansOld (l : list old_ban) | BansNew (l : list row).
Record log_row := mkLog { l_jail : string; l_path : string; l_md5 : option string; l_pos : Z }.
(** The tables; None: there is none.  [f_version]: the rows of fail2banDb. *)
Record file := mkFile {
  f_version : option (list Z);
  f_jails : option (dict string bool);
  f_logs : option (list log_row);
  f_bans : option bans_table;
  f_bips : option (dict (string * string) row) }.
Definition empty_file : file := mkFile None None None None None.
(** Corrupt: SQLite raises DatabaseError as soon as it reads. *)
Inductive content := Corrupt | Good (f : file).
Record disk := mkDisk { d_main : option content; d_backup : option content }.

Definition with_version v f := mkFile v (f_jails f) (f_logs f) (f_bans f) (f_bips f).
Definition f_with_jails v f := mkFile (f_version f) v (f_logs f) (f_bans f) (f_bips f).
Definition f_with_logs v f := mkFile (f_version f) (f_jails f) v (f_bans f) (f_bips f).
Definition f_with_bans v f := mkFile (f_version f) (f_jails f) (f_logs f) v (f_bips f).
Definition f_with_bips v f := mkFile (f_version f) (f_jails f) (f_logs f) (f_bans f) v.

(** How it ended. *)
Inductive err := RuntimeError | TypeError | NotImplementedError | OSError | AttributeError.
Inductive result := Opened | Failed (e : err).
(** The disk now, and the states it was in since the start, the newest first. *)
Record open_st := mkOpen { o_disk : disk; o_trace : list disk }.
Definition put (d : disk) (s : open_st) : open_st := mkOpen d (d :: o_trace s).
Definition put_main (c : content) (s : open_st) : open_st := put (mkDisk (Some c) (d_backup (o_disk s))) s.

(** sqlite3.connect: a missing file is an empty database *)
Definition main_content (d : disk) : content := match d_main d with Some c => c | None => Good empty_file end.

(** ** database.py:319-334 _createDb.  Each CREATE of a script is committed at once; the version is
    inserted afterwards, and committed at the end (332-334). *)
Definition or_else {A} (o : option A) (x : A) : option A := match o with Some _ => o | None => Some x end.
Definition create_steps (f : file) : list file :=
  let f1 := with_version (or_else (f_version f) []) f in
  let f2 := f_with_jails (or_else (f_jails f1) []) f1 in
  let f3 := f_with_logs (or_else (f_logs f2) []) f2 in
  let f4 := f_with_bans (or_else (f_bans f3) (BansNew [])) f3 in
  let f5 := f_with_bips (or_else (f_bips f4) []) f4 in
  let f6 := match f_version f5 with Some [] => with_version (Some [4]) f5 | _ => f5 end in
  [f1; f2; f3; f4; f5; f6].
Definition create (s : open_st) : open_st :=
  match main_content (o_disk s) with
  | Corrupt => s (* not reached *)
  | Good f => fold_left (fun s f => put_main (Good f) s) (create_steps f) s
  end.

(** ** database.py:342-393 updateDb; each script is one transaction *)
(** 357-365: UNIQUE(jail, path) and the foreign key are checked by the INSERT *)
Fixpoint logs_unique (l : list log_row) : bool :=
  match l with
  | [] => true
  | r :: l => negb (existsb (fun r' => eqb (l_jail r) (l_jail r') && eqb (l_path r) (l_path r')) l) && logs_unique l
  end.
Definition jail_known (f : file) (j : string) : bool := match f_jails f with Some js => dmem j js | None => false end.
Definition set_version (v : Z) (f : file) : file := with_version (option_map (map (fun _ => v)) (f_version f)) f.
Definition update_logs (version : Z) (f : file) : option file :=
  if version <? 2 then
    match f_logs f with
    | Some l => if logs_unique l && forallb (fun r => jail_known f (l_jail r)) l then Some (set_version 2 f) else None
    | None => Some f
    end
  else Some f.
(** 367-375 *)
Definition new_row (o : old_ban) : row := mkRow (o_jail o) (o_ip o) (o_time o) (-2) 1 (o_fail o) (o_matches o).
Definition unknown_bt (r : row) : row := mkRow (r_jail r) (r_ip r) (r_time r) (-2) 1 (r_fail r) (r_matches r).
Definition table_rows (b : bans_table) : list row := match b with BansOld l => map new_row l | BansNew l => map unknown_bt l end.
Definition update_bans (version : Z) (f : file) : option file :=
  if version <? 3 then
    match f_bans f with
    | Some b => if forallb (fun r => jail_known f (r_jail r)) (table_rows b) then Some (f_with_bans (Some (BansNew (table_rows b))) f) else None
    | None => Some f
    end
  else Some f.
(** 376-385: the table with the version, then, committed at the end, the rows; the newest ban of an ID in a jail
    replaces the older ones *)
Definition time_order (a b : row) : bool := r_time a <=? r_time b.
Definition newest (l : list row) (d : dict (string * string) row) : dict (string * string) row :=
  fold_left (fun d r => dset (r_ip r, r_jail r) r d) (sort_by time_order l) d.
Definition add_bips (f : file) : file := set_version 4 (f_with_bips (Some []) f).
Definition fill_bips (f : file) : option file :=
  match f_bans f with
  | None => Some f
  | Some (BansOld _) => None (* no such column *)
  | Some (BansNew l) =>
      if forallb (fun r => jail_known f (r_jail r)) l
      then Some (f_with_bips (option_map (newest l) (f_bips f)) f) else None
  end.
(** The version which updateDb returns; None: an exception (387-393). *)
Definition update (version : Z) (s : open_st) : open_st * option Z :=
  match main_content (o_disk s) with
  | Corrupt => (s, None) (* not reached *)
  | Good f =>
      (* 353-355 *)
      let s := match d_backup (o_disk s) with Some _ => s | None => put (mkDisk (d_main (o_disk s)) (d_main (o_disk s))) s end in
      match update_logs version f with
      | None => (s, None)
      | Some f1 =>
          let s := put_main (Good f1) s in
          match update_bans version f1 with
          | None => (s, None)
          | Some f2 =>
              let s := put_main (Good f2) s in
              match (if version <? 4 then match f_bips f2 with None => Some (add_bips f2) | Some _ => None end else None) with
              | None => (s, match f_version f2 with Some (v :: _) => Some v | _ => None end)
              | Some f3 =>
                  let s := put_main (Good f3) s in
                  match fill_bips f3 with
                  | None => (s, None)
                  | Some f4 => (put_main (Good f4) s, match f_version f4 with Some (v :: _) => Some v | _ => None end)
                  end
              end
          end
      end
  end.

Section Open.
(** The shell command of database.py:283-284: sqlite3 backup .dump | sqlite3 file: what is in the new file; None: there is none. *)
Variable dump : content -> option content.

(** database.py:174-253 _connectDB within a repair: there self.repairDB is None, so that calling it is a TypeError.
    [check] is checkIntegrity: what is missing is created, even if the opening failed (239-249).  With a damaged file the
    cursor was closed, so this fails too. *)
Definition connect_inner (check : bool) (s : open_st) : open_st * result :=
  match main_content (o_disk s) with
  | Corrupt => (s, Failed (if check then AttributeError else TypeError))
  | Good f =>
      let '(s, r) :=
        match f_version f with
        | None => (create s, Opened)
        | Some [] => (s, Failed TypeError)
        | Some (v :: _) =>
            if v =? 4 then (s, Opened)
            else if v >? 4 then (s, Failed NotImplementedError)
            else match update v s with
                 | (s, Some v) => (s, if v =? 4 then Opened else Failed RuntimeError)
                 | (s, None) => (s, Failed TypeError)
                 end
        end in
      (if check then create s else s, r)
  end.
(** database.py:268-301 repairDB.  The error of an empty file is the one raised for it. *)
Definition is_empty (c : content) : bool :=
  match c with
  | Good f => match f_version f, f_jails f, f_logs f, f_bans f, f_bips f with None, None, None, None, None => true | _, _, _, _, _ => false end
  | Corrupt => false
  end.
Definition repair (s : open_st) : open_st * result :=
  let d := o_disk s in
  let s := match d_backup d with
           | None => put (mkDisk None (d_main d)) s
           | Some _ => match d_main d with Some _ => put (mkDisk None (d_backup d)) s | None => s end
           end in
  let s := match dump (match d_backup (o_disk s) with Some c => c | None => Good empty_file end) with
           | Some c => put_main c s
           | None => s
           end in
  let '(s, r) := match d_main (o_disk s) with
                 | None => (s, Failed OSError)
                 | Some c => if is_empty c then (s, Failed RuntimeError) else connect_inner true s
                 end in
  match r with
  | Opened => (s, Opened)
  | Failed _ =>
      match d_main (o_disk s) with
      | None => (s, Failed OSError) (* os.remove *)
      | Some _ => connect_inner true (put (mkDisk None (d_backup (o_disk s))) s)
      end
  end.
(** database.py:174-253 _connectDB.  After a failed upgrade the repaired database is connected, but the version is None then
    (393, 230-238). *)
Definition connect (s : open_st) : open_st * result :=
  match main_content (o_disk s) with
  | Corrupt => repair s
  | Good f =>
      match f_version f with
      | None => (create s, Opened)
      | Some [] => (s, Failed TypeError)
      | Some (v :: _) =>
          if v =? 4 then (s, Opened)
          else if v >? 4 then (s, Failed NotImplementedError)
          else match update v s with
               | (s, Some v) => (s, if v =? 4 then Opened else Failed RuntimeError)
               | (s, None) =>
                   match repair s with
                   | (s, Opened) => (s, Failed RuntimeError)
                   | (s, Failed e) => (s, Failed e)
                   end
               end
      end
  end.
(** Opening a database; each process has its own name for the backup. *)
Definition open_db (d : disk) : open_st * result := connect (mkOpen d [d]).
End Open.

(** What the rest of the program sees (Database_Model). *)
Definition table_bans (b : bans_table) : list row := match b with BansOld _ => [] | BansNew l => l end.
Definition as_db (f : file) : option db :=
  match f_jails f, f_logs f, f_bans f, f_bips f with
  | Some js, Some ls, Some (BansNew bs), Some bips =>
      Some (mkDb js (map (fun l => ((l_jail l, l_path l), (l_md5 l, l_pos l))) ls) bs bips [])
  | _, _, _, _ => None
  end.
