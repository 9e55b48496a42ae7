(** Model of the logging of the server: fail2ban/server/server.py:644-812 (setLogLevel, setLogTarget, setSyslogSocket, flushLogs
    and the getters), with the handlers of Python's [logging] (StreamHandler, SysLogHandler, RotatingFileHandler without
    limits) and files that can be renamed (logrotate).

    Simplifications:
    - a message is written by a handler or lost; formats, paddings and times are left out, of the options of a target only
      the facility is modelled;
    - the options of the target have been split off (extractOptions: Options_Model);
    - an operation carries what it meets: which files can be opened, which paths are sockets that answer, and so on;
    - the messages the methods log themselves are left out; not run from test cases (DEF_LOGTARGET is not INHERITED). *)
From Verif Require Import Base Text.
Local Open Scope string_scope. Local Open Scope list_scope. Local Open Scope Z_scope.

(** What the surroundings answer *)
Inductive sock_state := NoSocket | Refuses | Answers.
Record world := mkW {
  w_open    : text -> bool;              (* open(path, "a") succeeds *)
  w_socket  : text -> sock_state;        (* no socket there; a socket that cannot be connected; one that can *)
  w_journal : bool;                      (* the module systemd.journal is there *)
  w_auto    : option text;               (* the path for this platform *)
  w_levels  : text -> option Z           (* str2LogLevel, helpers.py:246-254, and setLevel: None is an exception *)
}.
(** An open file is known by a number (its inode); a handler whose stream is closed has none. *)
Inductive handler := HFile (path : text) (ino : option nat) | HSyslog (sock facility : text) | HOut | HErr | HJournal.
(** where a message went: the file itself, whatever its name is by now *)
Inductive sink := SFile (ino : nat) | SSyslog (sock facility : text) | SOut | SErr | SJournal.
Record logs := mkL {
  level    : option text;                (* __logLevel *)
  loglevel : Z;                          (* the level of the logger *)
  target   : option text;                (* __logTarget *)
  socket   : option text;                (* __syslogSocket *)
  handlers : list handler;               (* of the logger "fail2ban" *)
  files    : dict text nat;              (* which file has this name *)
  fresh    : nat;                        (* the next new file *)
  written  : list (sink * text)
}.
Definition with_target t h s := mkL (level s) (loglevel s) t (socket s) h (files s) (fresh s) (written s).
Definition with_socket k s := mkL (level s) (loglevel s) (target s) k (handlers s) (files s) (fresh s) (written s).
Definition with_level v n s := mkL v n (target s) (socket s) (handlers s) (files s) (fresh s) (written s).
Definition with_files f n s := mkL (level s) (loglevel s) (target s) (socket s) (handlers s) f n (written s).
Definition with_handlers h s := with_target (target s) h s.
Definition write_to k m s := mkL (level s) (loglevel s) (target s) (socket s) (handlers s) (files s) (fresh s) (written s ++ [(k, m)]).

Definition upper_char (c : ascii) : ascii :=
  let n := char_code c in if (97 <=? n) && (n <=? 122) then ascii_of_N (Z.to_N (n - 32)) else c.
Definition upper (t : text) : text := map upper_char t.
(** open(path, "a"): the file of this name, a new one if there is none *)
Definition open_file (s : logs) (p : text) : logs * nat :=
  match dget p (files s) with
  | Some n => (s, n)
  | None => (with_files (dset p (fresh s) (files s)) (S (fresh s)) s, fresh s)
  end.

Inductive reply := RTrue | RFalse | RRaised | RText (t : text) | RNone.
(** server.py:671-779 setLogTarget; [fac] is the option facility *)
Definition facilities : list text :=
  map tx ["KERN"; "USER"; "MAIL"; "DAEMON"; "AUTH"; "SYSLOG"; "LPR"; "NEWS"; "UUCP"; "CRON"; "AUTHPRIV"; "FTP"; "NTP"; "SECURITY"; "CONSOLE"; "SOLCRON";
          "LOCAL0"; "LOCAL1"; "LOCAL2"; "LOCAL3"; "LOCAL4"; "LOCAL5"; "LOCAL6"; "LOCAL7"].
Definition facility_of (fac : option text) : text :=
  match fac with
  | Some f => if inb (upper f) facilities then upper f else tx "DAEMON"
  | None => tx "DAEMON"
  end.
Definition set_target (w : world) (t : text) (fac : option text) (s : logs) : logs * reply :=
  let sys := upper t in
  if eqb (target s) (Some t) then (s, RTrue)
  else if eqb sys (tx "INHERITED") then (with_target (Some t) (handlers s) s, RTrue)
  else
    let done (s : logs) (h : handler) := (with_target (Some t) [h] s, RTrue) in
    if eqb sys (tx "SYSTEMD-JOURNAL") then (if w_journal w then done s HJournal else (s, RRaised))
    else if eqb sys (tx "SYSLOG") then
      let s := if eqb (socket s) (Some (tx "auto")) then with_socket (w_auto w) s else s in
      match socket s with
      | None => (s, RFalse)
      | Some k => match w_socket w k with
                  | NoSocket => (s, RFalse)
                  | Refuses => (s, RRaised)
                  | Answers => done s (HSyslog k (facility_of fac))
                  end
      end
    else if eqb sys (tx "STDOUT") || eqb sys (tx "SYSOUT") then done s HOut
    else if eqb sys (tx "STDERR") then done s HErr
    else if w_open w t then let '(s, n) := open_file s t in done s (HFile t (Some n))
    else (s, RFalse).
(** server.py:780-787 setSyslogSocket *)
Definition set_socket (w : world) (k : text) (s : logs) : logs * reply :=
  if eqb (socket s) (Some k) then (s, RTrue)
  else let s := with_socket (Some k) s in
       match target s with
       | Some t => if eqb t (tx "SYSLOG") then set_target w t None s else (s, RTrue)
       | None => (s, RTrue)
       end.
(** server.py:644-653 setLogLevel *)
Definition set_level (w : world) (v : text) (s : logs) : logs * reply :=
  let v := upper v in
  if eqb (level s) (Some v) then (s, RNone)
  else match w_levels w v with
       | Some n => (with_level (Some v) n s, RNone)
       | None => (s, RRaised)
       end.
(** server.py:797-812 flushLogs.  RotatingFileHandler.doRollover closes the file and opens the name again; other handlers
    have no doRollover.  An exception of opening ends the loop. *)
Fixpoint rollover (w : world) (hs : list handler) (s : logs) : list handler * logs * bool :=
  match hs with
  | [] => ([], s, true)
  | HFile p i :: r =>
      if w_open w p then
        let '(s, n) := open_file s p in let '(r, s, ok) := rollover w r s in (HFile p (Some n) :: r, s, ok)
      else (HFile p None :: r, s, false)
  | h :: r => let '(r, s, ok) := rollover w r s in (h :: r, s, ok)
  end.
Definition flush (w : world) (s : logs) : logs * reply :=
  if inb (target s) (map (fun x => Some (tx x)) ["STDERR"; "STDOUT"; "SYSLOG"; "SYSTEMD-JOURNAL"]) then (s, RText (tx "flushed"))
  else let '(h, s, ok) := rollover w (handlers s) s in (with_handlers h s, if ok then RText (tx "rolled over") else RRaised).
(** One message: every handler writes it; a file that is not open is opened first, and if this fails the message is lost. *)
Fixpoint emit (w : world) (m : text) (hs : list handler) (s : logs) : list handler * logs :=
  match hs with
  | [] => ([], s)
  | h :: r =>
      let '(h, s) := match h with
        | HFile p (Some n) => (h, write_to (SFile n) m s)
        | HFile p None => if w_open w p then let '(s, n) := open_file s p in (HFile p (Some n), write_to (SFile n) m s) else (h, s)
        | HSyslog k f => (h, write_to (SSyslog k f) m s)
        | HOut => (h, write_to SOut m s)
        | HErr => (h, write_to SErr m s)
        | HJournal => (h, write_to SJournal m s)
        end in
      let '(r, s) := emit w m r s in (h :: r, s)
  end.
Definition log (w : world) (lvl : Z) (m : text) (s : logs) : logs :=
  if lvl <? loglevel s then s else let '(h, s) := emit w m (handlers s) s in with_handlers h s.
(** os.rename by another program: the file keeps its number; a file of the new name is gone *)
Definition rename (p q : text) (s : logs) : logs :=
  match dget p (files s) with
  | Some n => if eqb p q then s else with_files (dset q n (ddel p (files s))) (fresh s) s
  | None => s
  end.

Inductive op :=
  | OTarget (w : world) (t : text) (fac : option text)
  | OSocket (w : world) (k : text)
  | OLevel (w : world) (v : text)
  | OFlush (w : world)
  | OLog (w : world) (lvl : Z) (m : text)
  | ORename (p q : text).
Definition step (s : logs) (o : op) : logs * reply :=
  match o with
  | OTarget w t f => set_target w t f s
  | OSocket w k => set_socket w k s
  | OLevel w v => set_level w v s
  | OFlush w => flush w s
  | OLog w l m => (log w l m s, RNone)
  | ORename p q => (rename p q s, RNone)
  end.
Definition run (s : logs) (l : list op) : logs := fold_left (fun s o => fst (step s o)) l s.
(** server.py:86-89; the handlers and the level the process has already, and the files there are *)
Definition init (h : list handler) (lvl : Z) (f : dict text nat) (n : nat) : logs := mkL None lvl None None h f n [].
