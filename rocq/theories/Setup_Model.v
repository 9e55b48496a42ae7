(** The client that reads the configuration and sets up the server: fail2ban/client/fail2banreader.py:52-85
    (settings of the server itself), configurator.py:75-97, fail2bancmdline.py:282-300 (readConfig),
    fail2banclient.py:85-135 (sending), 157-176, 181-222 (start), 270-329 (commands), together with the
    server of Server_Model and the reading of jails of Stream_Model.

    Simplifications: a number or truth value in a command is the text Python prints for it, and None the
    text None (a command is pickled, the server would get the object; the settings convert what they get);
    a server that is there answers in time and no connection is lost; a dictionary is the list of its
    pairs.  Messages, interactive mode and waiting are left out. *)
From Verif Require Import Base Text Options_Model.
From Verif Require Stream_Model.
From Verif Require Import Server_Model.
Local Open Scope string_scope.
Local Open Scope list_scope.
Local Open Scope Z_scope.

(** ** Commands as the client sends them: csocket.py:49-53, 78-84 *)
Definition str (t : text) : string := string_of_list_ascii t.
Definition py (v : Stream_Model.val) : string :=
  match v with
  | Stream_Model.VNone => "None"
  | Stream_Model.VBool b => if b then "True" else "False"
  | Stream_Model.VInt z => if z <? 0 then String "-" (str (dec (- z))) else str (dec z)
  | Stream_Model.VText t => str t
  end.
Definition encode (c : Stream_Model.cmd) : arg :=
  match c with
  | Stream_Model.CAdd j b => A [T "add"; T (str j); T (py b)]
  | Stream_Model.CSet j l => A (T "set" :: T (str j) :: map (fun v => T (py v)) l)
  | Stream_Model.CMulti j o l => A [T "multi-set"; T (str j); T (str o); A (map (fun t => T (str t)) l)]
  | Stream_Model.CMultiAct j a l =>
      A [T "multi-set"; T (str j); T "action"; T (str a); A (map (fun kv => A [T (str (fst kv)); T (py (snd kv))]) l)]
  | Stream_Model.CStart j => A [T "start"; T (str j)]
  | Stream_Model.CError m => A [T "config-error"; T (str m)]
  end.

(** ** The settings of the server itself: fail2banreader.py *)
Inductive gval := GV (v : Stream_Model.val) | GDict (d : Stream_Model.opts).
Definition encode_g (v : gval) : arg :=
  match v with
  | GV v => T (py v)
  | GDict d => A (map (fun kv => A [T (str (fst kv)); T (py (snd kv))]) d)
  end.
(** What fail2ban.conf says: [Definition], [Thread] if it is there; is this a log level. *)
Record mainfile := mkMain {
  m_get : text -> Stream_Model.gres;
  m_thread : option (text -> Stream_Model.gres);
  m_level : option gval -> bool }.
(** fail2banreader.py:53-60, 67 *)
Definition main_options : Stream_Model.template :=
  [(Stream_Model.TString, tx "loglevel", Stream_Model.VText (tx "INFO"));
   (Stream_Model.TString, tx "logtarget", Stream_Model.VText (tx "STDERR"));
   (Stream_Model.TString, tx "syslogsocket", Stream_Model.VText (tx "auto"));
   (Stream_Model.TString, tx "allowipv6", Stream_Model.VText (tx "auto"));
   (Stream_Model.TString, tx "dbfile", Stream_Model.VText (tx "/var/lib/fail2ban/fail2ban.sqlite3"));
   (Stream_Model.TInt, tx "dbmaxmatches", Stream_Model.VNone);
   (Stream_Model.TString, tx "dbpurgeage", Stream_Model.VText (tx "1d"))].
Definition thread_options : Stream_Model.template := [(Stream_Model.TInt, tx "stacksize", Stream_Model.VNone)].
(** fail2banreader.py:52-72 getOptions(updateMainOpt); None: an exception *)
Definition update (d u : dict text gval) : dict text gval := fold_left (fun d kv => dset (fst kv) (snd kv) d) u d.
Definition main_get (E : Stream_Model.env) (M : mainfile) (conf : dict text gval) : option (dict text gval) :=
  match Stream_Model.get_options E (m_get M) main_options [] false true [] with
  | None => None
  | Some o =>
      let o := update (map (fun kv => (fst kv, GV (snd kv))) o) conf in
      if m_level M (dget (tx "loglevel") o) then
        match m_thread M with
        | None => Some o
        | Some g =>
            match Stream_Model.get_options E g thread_options [] false true [] with
            | None => None
            | Some [] => Some o
            | Some th => Some (dset (tx "thread") (GDict th) o)
            end
        end
      else None
  end.
(** fail2banreader.py:74-85 convert: sorted by the number of the option, then by its name (the only two
    options with the same number are dbmaxmatches and dbpurgeage) *)
Definition order (k : text) : option Z :=
  dget k [(tx "thread", 0); (tx "syslogsocket", 11); (tx "loglevel", 12); (tx "logtarget", 13); (tx "allowipv6", 14);
          (tx "dbfile", 50); (tx "dbmaxmatches", 51); (tx "dbpurgeage", 51)].
Fixpoint text_le (a b : text) : bool :=
  match a, b with
  | [], _ => true
  | _, [] => false
  | x :: a, y :: b => if char_code x =? char_code y then text_le a b else char_code x <? char_code y
  end.
Definition before (x y : Z * (text * gval)) : bool :=
  (fst x <? fst y) || (fst x =? fst y) && text_le (fst (snd x)) (fst (snd y)).
Fixpoint insert (x : Z * (text * gval)) (l : list (Z * (text * gval))) : list (Z * (text * gval)) :=
  match l with [] => [x] | y :: r => if before x y then x :: l else y :: insert x r end.
Definition main_convert (o : dict text gval) : list (text * gval) :=
  map snd (fold_right insert [] (flat_map (fun kv => match order (fst kv) with Some n => [(n, kv)] | None => [] end) o)).

(** ** The configuration: configurator.py, fail2bancmdline.py:282-300 readConfig *)
(** A command for the server itself, or about jails. *)
Inductive gcmd := GSet (opt : text) (v : gval) | GJail (c : Stream_Model.cmd).
Definition encode_cmd (g : gcmd) : arg :=
  match g with GSet k v => A [T "set"; T (str k); encode_g v] | GJail c => encode c end.
(** The files: fail2ban.conf (None: cannot be read), the sections of jail.conf (None: cannot be read), the
    rest of them; the options of the command line. *)
Record config := mkConfig {
  cf_env : Stream_Model.env; cf_main : option mainfile; cf_sections : option (list text);
  cf_opts : dict text gval; cf_force : bool; cf_dump : bool; cf_clean : bool }.
(** The result: None is an exception, or that the configuration is not valid.  configurator.py:67-97 *)
Definition read_config (C : config) (jail : option text) : option (list gcmd) :=
  match cf_main C, cf_sections C with
  | Some M, Some secs =>
      match main_get (cf_env C) M (cf_opts C) with
      | None => None
      | Some o =>
          match Stream_Model.jails_get_options (cf_env C) (cf_force C) (negb (cf_clean C)) (match jail with None => secs | Some n => [n] end) with
          | None => None
          | Some (l, ok) =>
              match Stream_Model.jails_convert (cf_env C) (cf_dump C) l with
              | None => None
              | Some s => if ok then Some (map (fun kv => GSet (fst kv) (snd kv)) (main_convert o) ++ map GJail s) else None
              end
          end
      end
  | _, _ => None
  end.

(** ** The client: fail2banclient.py *)
(** A server that may be there; is there a socket file without a server. *)
Record world := mkWorld { w_server : option srv; w_socket : bool }.
(** What is outside: the configuration, the world of the server, options of the command line; does a new
    server come up, with a database. *)
Record setting := mkSetting {
  x_config : config; x_env : env; x_force : bool; x_background : bool; x_comes_up : bool; x_db : bool }.

(** fail2banclient.py:85-135 __processCmd: all commands are sent, the result is whether none failed.  A
    server that is told to stop is gone (transmitter.py:95-97, server.py:190-234). *)
Definition is_quit (c : arg) : bool := match c with A [T n] => eqb n "stop" | _ => false end.
Fixpoint process_cmd (w : env) (cs : list arg) (s : option srv) (ret : bool) : option srv * bool :=
  match cs with
  | [] => (s, ret)
  | c :: cs =>
      match s with
      | None => (None, false)
      | Some s =>
          let '(s', (code, _)) := proceed w c s in
          process_cmd w cs (if is_quit c && (code =? 0) then None else Some s') (ret && (code =? 0))
      end
  end.
Definition send (X : setting) (cs : list arg) (o : world) : world * bool :=
  let '(s, r) := process_cmd (x_env X) cs (w_server o) true in (mkWorld s (w_socket o), r).

(** fail2banclient.py:157-176 __prepareStartServer *)
Definition prepare_start (X : setting) (o : world) : option (list arg) :=
  match w_server o with
  | Some _ => None
  | None =>
      match read_config (x_config X) None with
      | None => None
      | Some stream =>
          if negb (x_force X) && w_socket o then None
          else Some [A [T "server-stream"; A (map encode_cmd stream)]; A [T "server-status"]]
      end
  end.
(** fail2banclient.py:181-222 __startServer, 332-356: in the foreground a server that could not be set up
    ends, in the background it stays.  The file of the socket is replaced by the new server's. *)
Definition start_server (X : setting) (o : world) : world * bool :=
  match prepare_start X o with
  | None => (o, false)
  | Some cs =>
      if x_comes_up X then
        let '(s, r) := process_cmd (x_env X) cs (Some (srv_init (x_db X))) true in
        (mkWorld (if r || x_background X then s else None) false, r)
      else (o, false)
  end.

(** fail2banclient.py:293-305: the options of reload; None: too many arguments *)
Definition reload_options : list string := ["--restart"; "--unban"; "--if-exists"].
Fixpoint reload_args (l : list string) : option (list string * list string) :=
  match l with
  | [] => Some ([], [])
  | x :: r =>
      if inb x reload_options then
        match reload_args r with Some (o, j) => Some (x :: o, j) | None => None end
      else match r with [] => Some ([], l) | _ => None end
  end.
Definition reload_server (X : setting) (l : list string) (o : world) : world * bool :=
  match reload_args l with
  | None => (o, false)
  | Some (opts, names) =>
      match w_server o with
      | None => (o, false)
      | Some _ =>
          let jail := match names with n :: _ => if eqb n all_jails then None else Some n | [] => None end in
          match read_config (x_config X) (match jail with Some n => Some (list_ascii_of_string n) | None => None end) with
          | None => (o, false)
          | Some stream =>
              send X [A [T "reload"; T (match jail with Some n => n | None => all_jails end); A (map T opts); A (map encode_cmd stream)]] o
          end
      end
  end.

(** fail2banclient.py:270-329 __processCommand.  "restart" without a jail stops the server and starts a new
    one; it fails if the old one is still there. *)
Definition command (X : setting) (l : list string) (o : world) : world * bool :=
  match l with
  | [n] =>
      if eqb n "start" then start_server X o
      else if eqb n "restart" then
        let o1 := fst (send X [A [T "stop"]] o) in
        match w_server o1 with Some _ => (o1, false) | None => start_server X o1 end
      else if eqb n "reload" then reload_server X [] o
      else send X [A [T n]] o
  | n :: r =>
      if eqb n "restart" then reload_server X ("--restart" :: r) o
      else if eqb n "reload" then reload_server X r o
      else send X [A (map T l)] o
  | [] => (o, false) (* fail2banclient.py:449-451 *)
  end.
