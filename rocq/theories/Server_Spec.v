(** Vocabulary for the statements about the server (properties C40, C41, C42, C61).  It speaks of
    the jails of a state, of commands as the client sends them, and of the outside world. *)
From Verif Require Import Base Server_Model.
Open Scope string_scope.
Open Scope list_scope.
Open Scope Z_scope.

(** A jail with both its threads running. *)
Definition running (j : jail) : Prop := j_filter j = TRun /\ j_actions j = TRun.

(** The jails of a state, by name. *)
Definition jail_of (s : srv) (n : string) : option jail := dget n (s_jails s).
Definition names (s : srv) : list string := map fst (s_jails s).
Definition all_running (s : srv) : Prop := forall n j, jail_of s n = Some j -> running j.

(** The commands. *)
Definition ping : arg := A [T "ping"].
Definition add (n backend : string) : arg := A [T "add"; T n; T backend].
Definition start (n : string) : arg := A [T "start"; T n].
Definition stop (n : string) : arg := A [T "stop"; T n].
Definition set (n k : string) (vs : list string) : arg := A (T "set" :: T n :: T k :: map T vs).
Definition get (n k : string) (vs : list string) : arg := A (T "get" :: T n :: T k :: map T vs).
Definition reload (n : string) (opts : list string) (cs : list arg) : arg :=
  A [T "reload"; T n; A (map T opts); A cs].
Definition server_stream (cs : list arg) : arg := A [T "server-stream"; A cs].

(** Nothing outside goes wrong: jails can be made, threads started, the database answers. *)
Definition threads_ok (w : env) : Prop := forall n, e_fstart w n = true /\ e_astart w n = true.
Definition db_ok (w : env) : Prop := forall n, e_dbadd w n = true /\ e_dbdel w n = true.
Definition ends_ok (w : env) : Prop := forall n, e_end w n = true /\ e_dbdel w n = true.
Definition begins_ok (w : env) : Prop := forall n, e_begin w n = true.
Definition calm (w : env) : Prop :=
  threads_ok w /\ db_ok w /\ ends_ok w /\ begins_ok w.

Definition op_env (P : env -> Prop) (o : op) : Prop :=
  match o with Cmd w _ => P w | _ => True end.

(** Between two commands: no reload is going on. *)
Definition settled (s : srv) : Prop :=
  s_quiet s = false /\ s_reload s = [] /\ forall n j, jail_of s n = Some j -> j_rlogs j = None.

(** Commands that only ask. *)
Definition asks (c : arg) : Prop :=
  exists k r, c = A (T k :: r) /\
    In k ["ping"; "banned"; "echo"; "server-status"; "get"; "status"; "stats"; "statistic";
          "statistics"; "version"].

(** Commands about one jail. *)
Definition about (n : string) (c : arg) : Prop :=
  n <> "--all" /\
  exists k r, c = A (T k :: T n :: r) /\ In k ["add"; "start"; "stop"; "set"; "multi-set"].

(** The commands of a configuration, as the client composes them from the files
    (client/jailreader.py 242-301, client/jailsreader.py 103-125): jails are added, set up and
    started; nothing is banned, unbanned or taken from the list of log files.  The settings of the
    server itself may come with any value (client/fail2banreader.py 74-85). *)
Definition config_command (c : arg) : Prop :=
  (exists n r, c = A (T "add" :: T n :: r))
  \/ (exists n r, c = A (T "start" :: T n :: r))
  \/ (exists m n k vs, c = A (T m :: T n :: T k :: vs) /\ (m = "set" \/ m = "multi-set") /\
        k <> "banip" /\ k <> "unbanip" /\ k <> "dellogpath")
  \/ (exists r, c = A (T "config-error" :: r))
  \/ (exists n v, c = A [T "set"; T n; v] /\ In n server_settings).

(** The names in the "add" commands. *)
Definition added (cs : list arg) : list string :=
  flat_map (fun c => match c with A (T "add" :: T n :: _) => [n] | _ => [] end) cs.

(** What a new server makes of these commands. *)
Definition fresh (w : env) (db : bool) (cs : list arg) : srv * option err :=
  stream w cs (set_quiet true (srv_init db)).

(** Two jails have the same configuration, option by option; the order of log files does not
    matter. *)
Record same_config (j j' : jail) : Prop := {
  sc_backend : j_backend j = j_backend j';
  sc_fail : j_fail j = j_fail j';
  sc_ignore : j_ignore j = j_ignore j';
  sc_ips : j_ips j = j_ips j';
  sc_logs : forall p, In p (j_logs j) <-> In p (j_logs j');
  sc_idle : j_idle j = j_idle j' }.

(** ... and the settings with one value: those of [new] where the configuration has one, else
    those of [old]. *)
Definition merged_opts (old new j : jail) : Prop :=
  forall k, dget k (j_opts j) = match dget k (j_opts new) with Some v => Some v | None => dget k (j_opts old) end.

(** The history of one jail object. *)
Definition was_started (s : srv) (no : Z) : Prop := In (Started no) (s_events s).
Definition was_stopped (s : srv) (no : Z) : Prop := In (Stopped no) (s_events s).

(** The jails a "reload n" is about. *)
Definition concerned (n m : string) : Prop := n = "--all" \/ m = n.

(** What a reload of [n] with options [opts] makes of the state [s]; [F] is what a new server
    makes of the commands of the configuration. *)
Record reloaded (n : string) (opts : list string) (F s s' : srv) : Prop := {
  (* jails not concerned, and not in the configuration, are untouched *)
  re_others : forall m, ~ concerned n m -> jail_of F m = None -> jail_of s' m = jail_of s m;
  (* of the concerned ones exactly those of the configuration exist, and run *)
  re_names : forall m, concerned n m \/ In m (names F) -> (In m (names s') <-> In m (names F));
  re_running : forall m j', In m (names F) -> jail_of s' m = Some j' -> running j';
  (* a jail with the same backend as before stays the same object, and keeps its bans *)
  re_kept : forall m j jf, concerned n m -> jail_of s m = Some j -> jail_of F m = Some jf ->
    j_backend j = j_backend jf -> ~ In "--restart" opts ->
    exists j', jail_of s' m = Some j' /\ j_no j' = j_no j
      /\ j_bans j' = (if inb "--unban" opts then [] else j_bans j)
      /\ same_config j' jf /\ merged_opts j jf j';
  (* the others are new objects, set up as on a new server *)
  re_new : forall m jf, jail_of F m = Some jf ->
    (forall j, jail_of s m = Some j -> In "--restart" opts \/ j_backend j <> j_backend jf) ->
    exists j', jail_of s' m = Some j' /\ j_bans j' = []
      /\ same_config j' jf /\ j_opts j' = j_opts jf
      /\ (forall k i, jail_of s k = Some i -> j_no j' <> j_no i)
      /\ ~ was_started s (j_no j') /\ ~ was_stopped s (j_no j');
  (* stopped is every concerned jail that is not kept, and nothing else *)
  re_stopped : forall no, was_stopped s' no <-> was_stopped s no \/
    exists m j, concerned n m /\ jail_of s m = Some j /\ no = j_no j /\
      ~ (~ In "--restart" opts /\ exists jf, jail_of F m = Some jf /\ j_backend jf = j_backend j);
  (* nothing that existed is started again *)
  re_started : exists ev, s_events s' = s_events s ++ ev /\
    forall m j, jail_of s m = Some j -> ~ In (Started (j_no j)) ev }.

(** What the answers to commands say about which jails there are.  Only commands at top level,
    no reload and no stream. *)
Definition simple (c : arg) : Prop :=
  match c with A (T k :: _) => k <> "reload" /\ k <> "server-stream" | _ => True end.

Definition registry_after (l : list string) (ca : arg * (Z * res)) : list string :=
  match ca with
  | (A (T k :: r), (0, _)) =>
      if eqb k "add" then match r with T n :: _ => l ++ [n] | _ => l end
      else if eqb k "stop" then
        match r with
        | [] => []
        | T n :: _ => if eqb n "--all" then [] else filter (fun m => negb (eqb m n)) l
        | _ => l
        end
      else l
  | _ => l
  end.

Fixpoint answers (s : srv) (ops : list op) : list (arg * (Z * res)) :=
  match ops with
  | [] => []
  | o :: r =>
      let '(s', a) := sv_step s o in
      match o, a with
      | Cmd _ c, Some x => (c, x) :: answers s' r
      | _, _ => answers s' r
      end
  end.

(** Unbanning.  An ID takes itself from the list if it is there, else everything in it, if it is
    a subnet or a host name. *)
Definition hit (w : env) (x : string) (l : list string) (y : string) : bool :=
  if inb x l then eqb x y else e_in w x y.
Definition left_over (w : env) (ips : list string) (l : list string) : list string :=
  fold_left (fun l x => filter (fun y => negb (hit w x l y)) l) ips l.

Fixpoint sum (l : list Z) : Z := match l with [] => 0 | x :: r => x + sum r end.
Definition count (l : list string) : Z := Z.of_nat (length l).
(** The number of bans in all jails. *)
Definition total_bans (s : srv) : Z := sum (map (fun nj => count (j_bans (snd nj))) (s_jails s)).

Definition unban (ips : list string) : arg := A (T "unban" :: map T ips).
Definition banned (ips : list string) : arg := A (T "banned" :: map T ips).
(** Is [x] banned in jail [n] of this state. *)
Definition is_banned (s : srv) (n x : string) : Prop := exists j, jail_of s n = Some j /\ In x (j_bans j).

(** Two states with the same jails, but for the bans. *)
Definition but_bans (f : list string -> list string) (s s' : srv) : Prop :=
  forall n, jail_of s' n = match jail_of s n with Some j => Some (with_bans (f (j_bans j)) j) | None => None end.

(** The commands of a list, one after the other, all answered with success. *)
Inductive executed (w : env) : srv -> list arg -> srv -> Prop :=
| executed_nil : forall s, executed w s [] s
| executed_cons : forall s c v s1 r s2, proceed w c s = (s1, (0, Good v)) -> executed w s1 r s2 -> executed w s (c :: r) s2.

(** A server that has had this history. *)
Definition after (db : bool) (ops : list op) : srv := sv_run (srv_init db) ops.

(** An outside world without trouble, for examples. *)
Definition good_env : env :=
  MkEnv (fun _ _ => true) (fun _ => true) (fun _ => true) (fun _ => true) (fun _ => true)
        (fun _ => true) (fun _ => true) (fun _ => true) (fun _ => true)
        (fun _ v => Some v) (fun _ => Some 0) (fun _ _ => false) (fun _ => Good VNone).
