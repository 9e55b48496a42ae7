(** Specification vocabulary for setting up the server from the configuration. *)
From Verif Require Import Base Text Options_Model Options_Spec.
From Verif Require Stream_Model Stream_Spec.
From Verif Require Import Server_Model Server_Spec Setup_Model.
Local Open Scope string_scope.
Local Open Scope list_scope.

(** A value of the configuration as the server takes it. *)
Definition taken (w : env) (k : text) (v : option Stream_Model.val) : option string :=
  match v with Some v => e_value w (str k) (py v) | None => None end.

(** The settings of a jail with one value. *)
Definition one_value : list text := Stream_Spec.first_options ++ [tx "datepattern"] ++ Stream_Spec.plain_options.
(** What the configuration says for one of them: [J] are the options of the jail, [F] of its filter.  Options
    of the filter count more, but for the date pattern. *)
Definition says (J F : Stream_Model.opts) (k : text) : option Stream_Model.val :=
  if inb k Stream_Spec.first_options then Stream_Spec.orelse (Stream_Spec.set_value (dget k F)) (Stream_Spec.set_value (dget k J))
  else if eqb k (tx "datepattern") then Stream_Spec.orelse (Stream_Spec.set_value (dget k J)) (Stream_Spec.set_value (dget k F))
  else if inb k Stream_Spec.plain_options then dget k J
  else None.

(** The backend and the lists of the jail [j] of the server are as the jail [c] of the configuration says. *)
Record lists_set (E : Stream_Model.env) (c : Stream_Model.jail) (F : Stream_Model.opts) (j : jail) : Prop := {
  su_backend : j_backend j = py (match dget (tx "backend") (Stream_Model.j_opts c) with Some b => b | None => Stream_Model.VText (tx "auto") end);
  su_fail : j_fail j = map str (Stream_Spec.lines_of (dget (tx "failregex") F) ++ Stream_Spec.lines_of (dget (tx "failregex") (Stream_Model.j_opts c)));
  su_ignore : j_ignore j = map str (Stream_Spec.lines_of (dget (tx "ignoreregex") F) ++ Stream_Spec.lines_of (dget (tx "ignoreregex") (Stream_Model.j_opts c)));
  su_ips : j_ips j = match dget (tx "ignoreip") (Stream_Model.j_opts c) with
                     | Some v => map str (splitwords (Stream_Model.text_of v) false)
                     | None => []
                     end;
  su_logs : exists files,
    (match dget (tx "logpath") (Stream_Model.j_opts c) with
     | Some v => if Stream_Spec.uses_journal (Stream_Model.j_opts c) then files = []
                 else Stream_Spec.log_files E (split nl (Stream_Model.text_of v)) files
     | None => files = []
     end) /\
    forall p, In p (j_logs j) <-> reads_files (j_backend j) = true /\ exists f t, In (f, t) files /\ p = str f }.
(** ... and so are its settings with one value; nothing else is set. *)
Definition set_up (E : Stream_Model.env) (w : env) (c : Stream_Model.jail) (F : Stream_Model.opts) (j : jail) : Prop :=
  lists_set E c F j /\ forall k, dget (str k) (j_opts j) = taken w k (says (Stream_Model.j_opts c) F k).

(** The jail called [n] in the configuration is enabled and valid; it gives the commands [s], its filter has
    the values [F]. *)
Definition enabled (C : config) (n : text) (c : Stream_Model.jail) (F : Stream_Model.opts) (s : list Stream_Model.cmd) : Prop :=
  Stream_Spec.configured (cf_env C) (cf_force C) (cf_dump C) n c F s.

(** The settings of the server itself, in the order in which they are sent (the database is told its file
    before its options, the log is set before anything is said in it): for each of them what
    man/fail2ban.conf gives as its kind and default. *)
Definition server_options : list (text * (Stream_Model.otype * Stream_Model.val)) :=
  let T d := (Stream_Model.TString, Stream_Model.VText (tx d)) in
  [(tx "syslogsocket", T "auto"); (tx "loglevel", T "INFO"); (tx "logtarget", T "STDERR"); (tx "allowipv6", T "auto");
   (tx "dbfile", T "/var/lib/fail2ban/fail2ban.sqlite3"); (tx "dbmaxmatches", (Stream_Model.TInt, Stream_Model.VNone)); (tx "dbpurgeage", T "1d")].
Definition sending_order : list text := tx "thread" :: map fst server_options.
(** The size of a thread's stack, from [Thread]. *)
Definition thread_says (E : Stream_Model.env) (M : mainfile) : option gval :=
  match m_thread M with
  | None => None
  | Some g => match Stream_Spec.option_value E true (g (tx "stacksize")) Stream_Model.TInt Stream_Model.VNone with
              | Some v => Some (GDict [(tx "stacksize", v)])
              | None => None
              end
  end.
(** What is said for one of them: on the command line, else in the file. *)
Definition server_says (C : config) (M : mainfile) (k : text) : option gval :=
  if eqb k (tx "thread") then
    match thread_says (cf_env C) M with Some v => Some v | None => dget k (cf_opts C) end
  else
    match dget k (cf_opts C) with
    | Some v => Some v
    | None => match dget k server_options with
              | Some (t, d) => match Stream_Spec.option_value (cf_env C) true (m_get M k) t d with Some v => Some (GV v) | None => None end
              | None => None
              end
    end.
Definition server_settings_of (C : config) (M : mainfile) : list (text * gval) :=
  flat_map (fun k => match server_says C M k with Some v => [(k, v)] | None => [] end) sending_order.

(** The sections to be read: all, or the one asked for.  [INCLUDES] is no jail. *)
Definition asked (C : config) (jail : option text) (n : text) : Prop :=
  n <> tx "INCLUDES" /\ match jail with
                        | None => exists secs, cf_sections C = Some secs /\ In n secs
                        | Some m => n = m
                        end.
(** Every section has a name of its own (configparser), and so has an option of the command line; no jail is
    called like a setting of the server. *)
Record well_named (C : config) : Prop := {
  wn_sections : forall secs, cf_sections C = Some secs -> NoDup secs;
  wn_opts : dwf (cf_opts C);
  wn_jails : forall n c F s, enabled C n c F s -> ~ In (str n) server_settings }.

(** The server takes every value. *)
Record takes_all (w : env) : Prop := {
  ta_make : forall n b, e_make w n b = true;
  ta_regex : forall r, e_regex w r = true;
  ta_ip : forall i, e_ip w i = true;
  ta_value : forall k v, e_value w k v <> None;
  ta_other : forall l, exists v, e_other w l = Good v }.
(** The configuration uses words the server knows: no parameter of a filter is a part of the word
    datepattern, and a log file is read from its head or its tail. *)
Definition words_known (C : config) : Prop := forall n c F s, enabled C n c F s ->
  str n <> "--all"
  /\ (forall x k, In x s -> Stream_Spec.key_of x = Some k -> In k Stream_Spec.commands)
  /\ (forall f t, In (f, t) (Stream_Spec.told_logs s) -> lower (str t) = "tail" \/ lower (str t) = "head").

(** ** Reloads *)
(** The jail a reload is about; None: all. *)
Definition the_section (t : option string) : option text := match t with Some n => Some (list_ascii_of_string n) | None => None end.
Definition in_reload (t : option string) (m : string) : Prop := match t with Some n => m = n | None => True end.
(** The words after "reload": options, then a jail, or --all, or nothing. *)
Definition reload_words (l opts : list string) (t : option string) : Prop :=
  let options := ["--restart"; "--unban"; "--if-exists"] in
  Forall (fun x => In x options) opts /\
  match t with
  | None => l = opts \/ l = opts ++ ["--all"]
  | Some n => l = opts ++ [n] /\ n <> "--all" /\ ~ In n options
  end.

(** The state [S'] after a reload, by the configuration [C]: of the jail [t], or all. *)
Record reloaded_to (C : config) (w : env) (t : option string) (opts : list string) (S S' : srv) : Prop := {
  (* of the jails the reload is about, exactly those that are enabled are there *)
  rt_names : forall m, in_reload t m -> (In m (names S') <-> exists n c F s, m = str n /\ asked C (the_section t) n /\ enabled C n c F s);
  (* the others are as before *)
  rt_others : forall m, ~ in_reload t m -> jail_of S' m = jail_of S m;
  (* a jail that was there, with the same backend, and is not to be restarted stays: it keeps its bans, unless
     they are to be lifted; what the configuration does not say keeps its value *)
  rt_kept : forall n c F s J, asked C (the_section t) n -> enabled C n c F s -> jail_of S (str n) = Some J -> ~ In "--restart" opts ->
    j_backend J = py (match dget (tx "backend") (Stream_Model.j_opts c) with Some b => b | None => Stream_Model.VText (tx "auto") end) ->
    exists J', jail_of S' (str n) = Some J' /\ running J' /\ j_idle J' = false /\ j_no J' = j_no J
      /\ j_bans J' = (if inb "--unban" opts then [] else j_bans J) /\ lists_set (cf_env C) c F J'
      /\ forall k, dget (str k) (j_opts J') = match taken w k (says (Stream_Model.j_opts c) F k) with Some v => Some v | None => dget (str k) (j_opts J) end;
  (* every other jail is new, and set up as on a new server *)
  rt_new : forall n c F s, asked C (the_section t) n -> enabled C n c F s ->
    (forall J, jail_of S (str n) = Some J -> In "--restart" opts
       \/ j_backend J <> py (match dget (tx "backend") (Stream_Model.j_opts c) with Some b => b | None => Stream_Model.VText (tx "auto") end)) ->
    exists J', jail_of S' (str n) = Some J' /\ running J' /\ j_idle J' = false /\ j_bans J' = [] /\ set_up (cf_env C) w c F J'
      /\ forall m J, jail_of S m = Some J -> j_no J' <> j_no J }.
