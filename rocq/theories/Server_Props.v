(** Properties C40, C41, C42 and C61: client commands, the registry of jails, reload, unbanning.

    [after db ops] is a server (with or without a database) that has had the history [ops]:
    commands of clients, in any outside world each, threads that die, filters that go idle, bans
    that come and go. *)
From Verif Require Import Base Server_Model Server_Spec Server_Proofs Server_Proofs2 Server_Proofs3 Server_Proofs4 Server_Proofs5 Server_Proofs6.
Open Scope string_scope.
Open Scope list_scope.
Open Scope Z_scope.

Lemma proceed_fst w c s : fst (proceed w c s) = fst (handler w c s).
Proof. unfold proceed. now destruct (handler w c s) as [s' [v|e]]. Qed.

Lemma inv_after db ops : inv (after db ops).
Proof. apply inv_run, inv_init. Qed.

Lemma settled_after db ops : Forall (op_env ends_ok) ops -> settled (after db ops).
Proof.
  intros F. destruct (cinv_run ops (srv_init db) F (cinv_init db)) as [_ [C1 C2]].
  split; [now apply quiet_run|]. split; [exact C1|exact C2].
Qed.

(** * C40: every command is answered, and a reload is closed *)

(** Whatever command comes, in whatever state and world, the answer is (0, value) or (1, error),
    and afterwards the server is not in quiet mode. *)
Theorem C40_answers : forall db ops w c,
  let '(s', (code, r)) := proceed w c (after db ops) in
  ((code = 0 /\ exists v, r = Good v) \/ (code = 1 /\ exists e, r = Bad e)) /\ s_quiet s' = false.
Proof.
  intros db ops w c. pose proof (quiet_run ops (srv_init db) eq_refl) as Q.
  pose proof (quiet_step (after db ops) (Cmd w c) Q) as Q'. cbn [sv_step] in Q'.
  unfold proceed in *. destruct (handler w c (after db ops)) as [s' [v|e]]; cbn [fst] in Q'; eauto.
Qed.

(** If no end of a reload raises, no reload is open after any history: the reload state is empty
    and no jail has a list of log files to be removed. *)
Theorem C40_closed : forall db ops, Forall (op_env ends_ok) ops -> settled (after db ops).
Proof. exact settled_after. Qed.

(** If it does raise (here: the database), the reload stays open; the next reload is refused, but
    its end removes every jail. *)
Definition bad_db : env :=
  MkEnv (fun _ _ => true) (fun _ => true) (fun _ => false) (fun _ => true) (fun _ => true)
        (fun _ => true) (fun _ => true) (fun _ => true) (fun _ => true)
        (fun _ v => Some v) (fun _ => Some 0) (fun _ _ => false) (fun _ => Good VNone).
Definition two_jails : list arg :=
  [add "sshd" "polling"; add "web" "polling"; set "sshd" "maxretry" ["3"]; set "web" "addlogpath" ["/var/log/web"];
   start "sshd"; start "web"].
Definition one_jail : list arg := [add "sshd" "polling"; start "sshd"].

Theorem C40_closed_refuted :
  exists ops, let s := after true ops in
    s_reload s <> [] /\ names s = ["sshd"; "web"] /\
    let '(s', (code, r)) := proceed good_env (reload "--all" [] two_jails) s in
    code = 1 /\ r = Bad EProgress /\ names s' = ["sshd"].
Proof.
  exists [Cmd good_env (server_stream two_jails); Cmd bad_db (reload "--all" [] one_jail)].
  vm_compute. repeat split; discriminate.
Qed.

(** Commands that only ask change nothing. *)
Theorem C40_readonly : forall w c s, asks c -> fst (proceed w c s) = s.
Proof. intros w c s H. rewrite proceed_fst. now apply asks_same. Qed.

(** A stream executes its commands in order, up to the first that fails; the answer is that
    failure, and nothing after it is executed. *)
Lemma executed_stream w cs : forall s s', executed w s cs s' <-> stream w cs s = (s', None).
Proof.
  induction cs as [|c r IH]; intros s s'.
  - split; [intros H; inversion H; reflexivity|]. intros H. injection H as ->. constructor.
  - rewrite stream_cons. unfold proceed in *. split.
    + intros H. inversion H as [|? ? v s1 ? ? P E]; subst. unfold proceed in P. destruct (handler w c s) as [s2 [v2|e]]; [|discriminate].
      injection P as -> ->. now apply IH.
    + destruct (handler w c s) as [s1 [v|e]] eqn:E; [|discriminate]. intros H. apply IH in H.
      econstructor; [|exact H]. unfold proceed. rewrite E. reflexivity.
Qed.

Theorem C40_stream : forall w cs s,
  (exists s1, executed w (set_quiet true s) cs s1
     /\ proceed w (server_stream cs) s = (set_quiet false s1, (0, Good VNone)))
  \/ (exists a c b s1 s2 e, cs = a ++ c :: b /\ executed w (set_quiet true s) a s1
     /\ proceed w c s1 = (s2, (1, Bad e))
     /\ proceed w (server_stream cs) s = (set_quiet false s2, (1, Bad e))).
Proof.
  intros w cs s. unfold proceed at 1 3, server_stream. rewrite handler_stream.
  destruct (stream w cs (set_quiet true s)) as [s1 [e|]] eqn:E.
  - right. apply stream_err in E as (a & c & b & s2 & -> & E1 & E2). exists a, c, b, s2, s1, e.
    split; [reflexivity|]. split; [now apply executed_stream|]. split; [unfold proceed; now rewrite E2|reflexivity].
  - left. exists s1. split; [now apply executed_stream|reflexivity].
Qed.

(** A setting with one value that is refused changes nothing. *)
Theorem C40_failed_setting : forall w n k v s s' r,
  proceed w (set n k [v]) s = (s', (1, r)) -> s' = s.
Proof.
  intros w n k v s s' r H. unfold proceed in H. destruct (handler w (set n k [v]) s) as [s1 [x|e]] eqn:E; [discriminate|].
  injection H as <- _. eapply set_one_fails, E.
Qed.

Example C40_demo :
  snd (proceed good_env ping (after true [])) = (0, Good (VTxt "pong"))
  /\ snd (proceed good_env (start "sshd") (after true [])) = (1, Bad (EUnknown "sshd"))
  /\ snd (proceed good_env (A []) (after true [])) = (1, Bad EIndex)
  /\ snd (proceed good_env (reload "--all" [] two_jails) (after true [])) = (0, Good (VTxt "OK"))
  /\ names (after true [Cmd good_env (server_stream (one_jail ++ [start "none"; add "web" "auto"]))]) = ["sshd"].
Proof. vm_compute. repeat split. Qed.

(** * C41: the registry *)

(** Names are unique; so are the objects behind them. *)
Theorem C41_unique : forall db ops, let s := after db ops in
  NoDup (names s) /\
  forall n m j k, jail_of s n = Some j -> jail_of s m = Some k -> j_no j = j_no k -> n = m.
Proof. intros db ops s. pose proof (inv_after db ops) as I. split; [apply I|apply I]. Qed.

(** Between reloads, a name that exists cannot be added: nothing changes. *)
Theorem C41_add_exists : forall w n b s j, s_reload s = [] -> jail_of s n = Some j -> n <> "--all" ->
  proceed w (add n b) s = (s, (1, Bad (EDuplicate n))).
Proof.
  intros w n b s j R L N. unfold proceed, add.
  change (handler w (A [T "add"; T n; T b]) s) with (if eqb n all_jails then (s, Bad EReserved) else done (add_jail w n b s) (VTxt n)).
  destruct (eqb_spec n all_jails) as [E|_]; [contradiction|]. unfold add_jail. rewrite R. cbn [dget]. unfold jails_add, dmem.
  unfold jail_of in L. rewrite L. reflexivity.
Qed.

(** A new name is added: a new object with this backend, not running, nothing configured. *)
Theorem C41_add_new : forall w n b s, s_reload s = [] -> jail_of s n = None -> n <> "--all" ->
  e_make w n b = true -> (s_db s = true -> e_dbadd w n = true) ->
  exists s', proceed w (add n b) s = (s', (0, Good (VTxt n))) /\ names s' = names s ++ [n] /\
    exists j, jail_of s' n = Some j /\ j_no j = s_next s /\ j_backend j = b /\ j_filter j = TNew /\ j_actions j = TNew
      /\ j_idle j = false /\ j_bans j = [] /\ j_logs j = [] /\ j_fail j = [] /\ j_ignore j = [] /\ j_ips j = [] /\ j_opts j = [].
Proof.
  intros w n b s R L N MK DB. unfold proceed, add.
  change (handler w (A [T "add"; T n; T b]) s) with (if eqb n all_jails then (s, Bad EReserved) else done (add_jail w n b s) (VTxt n)).
  destruct (eqb_spec n all_jails) as [E|_]; [contradiction|]. unfold add_jail. rewrite R. cbn [dget]. unfold jails_add.
  assert (M : dmem n (s_jails s) = false) by (unfold dmem; unfold jail_of in L; now rewrite L). rewrite M, MK.
  assert (NM : names (put n (new_jail (s_next s) b) s) = names s ++ [n]).
  { unfold names, put, set_jails. cbn [s_jails]. change (map fst) with (@dkeys string jail). rewrite dkeys_dset. now rewrite M. }
  unfold db_add. cbn [note set_next put set_jails s_db].
  assert (J : forall s', s_jails s' = s_jails (put n (new_jail (s_next s) b) s) -> jail_of s' n = Some (new_jail (s_next s) b)).
  { intros s' E. unfold jail_of. rewrite E. cbn. apply dget_dset_same. }
  destruct (s_db s).
  - rewrite (DB eq_refl). eexists. split; [reflexivity|]. split; [exact NM|]. exists (new_jail (s_next s) b).
    split; [now apply J|]. repeat split.
  - eexists. split; [reflexivity|]. split; [exact NM|]. exists (new_jail (s_next s) b). split; [now apply J|]. repeat split.
Qed.

(** The jail is there even if the database could not note it; the answer is an error. *)
Theorem C41_add_unnoted : forall w n b s, s_reload s = [] -> jail_of s n = None -> n <> "--all" ->
  e_make w n b = true -> s_db s = true -> e_dbadd w n = false ->
  exists s', proceed w (add n b) s = (s', (1, Bad EDb)) /\ names s' = names s ++ [n] /\ s_enabled s' = s_enabled s /\ exists j, jail_of s' n = Some j /\ j_no j = s_next s /\ j_backend j = b /\ j_filter j = TNew /\ j_actions j = TNew.
Proof.
  intros w n b s R L N MK DB Ef. unfold proceed, add.
  change (handler w (A [T "add"; T n; T b]) s) with (if eqb n all_jails then (s, Bad EReserved) else done (add_jail w n b s) (VTxt n)).
  destruct (eqb_spec n all_jails) as [E|_]; [contradiction|]. unfold add_jail. rewrite R. cbn [dget]. unfold jails_add.
  assert (M : dmem n (s_jails s) = false) by (unfold dmem; unfold jail_of in L; now rewrite L). rewrite M, MK.
  assert (NM : names (put n (new_jail (s_next s) b) s) = names s ++ [n]).
  { unfold names, put, set_jails. cbn [s_jails]. change (map fst) with (@dkeys string jail). rewrite dkeys_dset. now rewrite M. }
  unfold db_add. cbn [note set_next put set_jails s_db]. rewrite DB, Ef. cbn [done].
  eexists. split; [reflexivity|]. split; [exact NM|]. split; [reflexivity|]. exists (new_jail (s_next s) b).
  split; [unfold jail_of; cbn; apply dget_dset_same|]. repeat split.
Qed.

(** An unknown name: nothing changes, and the answer is an error. *)
Theorem C41_unknown : forall w n s, jail_of s n = None -> n <> "--all" -> ~ In n server_settings -> s_quiet s = false ->
  proceed w (start n) s = (s, (1, Bad (EUnknown n)))
  /\ proceed w (stop n) s = (s, (1, Bad (EUnknown n)))
  /\ (forall k v, exists e, proceed w (set n k [v]) s = (s, (1, Bad e)))
  /\ (forall k vs, exists e, proceed w (get n k vs) s = (s, (1, Bad e))).
Proof.
  intros w n s L NA NS Q. assert (L' : lookup s n = None) by exact L. repeat split.
  - unfold proceed, start. change (handler w (A [T "start"; T n]) s) with (done (start_jail w n s) VNone).
    unfold start_jail. now rewrite L'.
  - unfold proceed, stop. change (handler w (A [T "stop"; T n]) s) with
      (if eqb n all_jails then done (stop_all w s) VNone else done (stop_jail w n s) VNone).
    destruct (eqb_spec n all_jails) as [E|_]; [contradiction|]. unfold stop_jail, del_jail. now rewrite L'.
  - intros k v. unfold proceed, set. cbn [map].
    change (handler w (A (T "set" :: T n :: T k :: [T v])) s) with (command_set w false [T n; T k; T v] s).
    unfold command_set. apply inb_false in NS. rewrite NS.
    assert (B : forall e, exists e', match (s, Bad e) with (s', Good v0) => (s', (0, Good v0)) | (s', Bad e0) => (s', (1, Bad e0)) end = (s, (1, Bad e'))) by eauto.
    unfold set_key, on_jail. cbn [texts]. rewrite L', Q. cbn [andb].
    destruct (eqb k "idle"); [destruct (eqb v "on"); [apply B|]; destruct (eqb v "off"); apply B|].
    destruct (eqb k "addignoreip"); [apply B|]. destruct (eqb k "delignoreip"); [apply B|].
    destruct (eqb k "addlogpath"); [apply B|]. destruct (eqb k "dellogpath"); [apply B|].
    destruct (eqb k "addfailregex" || eqb k "addignoreregex"); [apply B|].
    destruct (eqb k "delfailregex" || eqb k "delignoreregex"); [cbv zeta; destruct (e_int w v); apply B|].
    destruct (is_value_setting k); [destruct (e_value w k v); apply B|].
    destruct (eqb k "banip"); [apply B|].
    destruct (eqb k "unbanip").
    { cbv zeta. destruct (eqb v "--report-absent"); cbn [texts]; unfold set_unban; rewrite L'; apply B. }
    destruct (eqb k "attempt"); [apply B|]. destruct (inb k _); apply B.
  - intros k vs. unfold proceed, get.
    change (handler w (A (T "get" :: T n :: T k :: map T vs)) s) with (s, command_get w (T n :: T k :: map T vs) s).
    unfold command_get. apply inb_false in NS. rewrite NS, L'. destruct (_ || _); eauto.
Qed.

(** A command about one jail leaves all other jails as they are, in the registry and in the
    database, in any state and world, and whether it succeeds or not. *)
Theorem C41_others : forall w n c s m, about n c -> m <> n ->
  let s' := fst (proceed w c s) in
  jail_of s' m = jail_of s m /\ (In m (s_enabled s') <-> In m (s_enabled s)).
Proof.
  intros w n c s m A N. cbv zeta. rewrite proceed_fst. destruct (other_about w m n c s A N) as (H1 & _ & H3 & _). auto.
Qed.

(** Threads are not lost: an object that was started and not stopped is in the registry (once),
    and a jail with a living thread was started. *)
Theorem C41_threads : forall db ops no, let s := after db ops in
  (was_started s no -> ~ was_stopped s no -> exists n j, jail_of s n = Some j /\ j_no j = no)
  /\ (forall n j, jail_of s n = Some j -> (j_filter j = TRun \/ j_actions j = TRun) -> was_started s (j_no j)).
Proof.
  intros db ops no s. pose proof (inv_after db ops) as I. fold s in I. split.
  - intros H1 H2. destruct (i_started s I no H1) as [H|H]; [contradiction|exact H].
  - intros n j L H. apply (i_alive s I n j L). unfold is_alive. destruct H as [-> | ->]; [reflexivity|apply orb_true_r].
Qed.

(** As long as the database works, the jails enabled in it are the jails of the server, also after
    reloads. *)
Theorem C41_database : forall ops, Forall (op_env db_ok) ops -> let s := after true ops in
  forall m, In m (s_enabled s) <-> In m (names s).
Proof.
  intros ops F s m. destruct (dbinv_run ops (srv_init true) F (dbinv_init true)) as [_ D].
  assert (DB : s_db (sv_run (srv_init true) ops) = true) by apply run_db.
  unfold s, after. rewrite (D DB). rewrite jail_of_names. destruct (jail_of _ m); split; eauto; try discriminate; try congruence.
  intros (j & H). discriminate.
Qed.

(** If it does not, a jail that is stopped stays in the registry, and cannot be started again. *)
Theorem C41_database_refuted : exists ops, let s := after true ops in
  names s = ["sshd"] /\ (exists j, jail_of s "sshd" = Some j /\ j_filter j = TEnd /\ j_actions j = TEnd)
  /\ snd (proceed good_env (start "sshd") s) = (1, Bad EThread).
Proof.
  exists [Cmd good_env (server_stream one_jail); Cmd bad_db (stop "sshd")]. vm_compute. split; [reflexivity|]. split; [|reflexivity].
  eexists. repeat split.
Qed.

(** The registry is what the answers say: over any history of commands other than reloads and
    streams, as long as the database works, the names are those added with success and not
    stopped with success since, in the order of addition. *)
Definition plain (o : op) : Prop := match o with Cmd w c => simple c /\ db_ok w | _ => True end.

Theorem C41_registry : forall db ops, Forall plain ops ->
  names (after db ops) = fold_left registry_after (answers (srv_init db) ops) [].
Proof.
  intros db ops F. unfold after.
  assert (G : forall s, inv s -> s_reload s = [] -> names (sv_run s ops) = fold_left registry_after (answers s ops) (names s)).
  2: { apply (G (srv_init db)); [apply inv_init|reflexivity]. }
  induction F as [|o r P F IH]; intros s I R; [reflexivity|].
  cbn [answers]. pose proof (inv_step s o I) as I'. change (sv_run s (o :: r)) with (sv_run (fst (sv_step s o)) r).
  destruct o as [w c|n f|n|n ip|n ip]; cbn [sv_step] in *.
  - destruct P as [P1 P2]. pose proof (registry_simple w c s P1 R I P2) as E. pose proof (simple_reload w c s P1 R) as R'.
    rewrite <- proceed_fst in R'. destruct (proceed w c s) as [s' a]. cbn [fst snd] in *. cbn [fold_left]. rewrite <- E. now apply IH.
  - cbn [fst] in *. destruct (lookup s n) as [j|] eqn:L; rewrite IH; auto; erewrite names_put; eauto.
  - cbn [fst] in *. destruct (lookup s n) as [j|] eqn:L; rewrite IH; auto; erewrite names_put; eauto.
  - cbn [fst] in *. destruct (lookup s n) as [j|] eqn:L; rewrite IH; auto; erewrite names_put; eauto.
  - cbn [fst] in *. destruct (lookup s n) as [j|] eqn:L; rewrite IH; auto; erewrite names_put; eauto.
Qed.

Example C41_demo :
  let ops := [Cmd good_env (add "a" "auto"); Cmd good_env (add "b" "systemd"); Cmd good_env (add "a" "polling");
              Cmd good_env (start "b"); Dies "b" true; Cmd good_env (stop "a"); Cmd good_env (stop "x"); Cmd good_env (add "c" "auto")] in
  Forall plain ops /\ names (after true ops) = ["b"; "c"] /\ s_enabled (after true ops) = ["b"; "c"]
  /\ about "b" (set "b" "bantime" ["600"]).
Proof.
  split; [|split; [vm_compute; reflexivity|split; [vm_compute; reflexivity|]]].
  - repeat constructor; cbn; try discriminate.
  - split; [discriminate|]. eexists _, _. split; [reflexivity|]. cbn. auto.
Qed.

(** * C42: reload *)

(** A reload (of all jails, or of one; with any of the options) with the commands of a
    configuration that a new server executes without error, all its jails running then: the
    answer is OK, no reload is open, and the state is the one described by [reloaded]. *)
Theorem C42_reload : forall db ops w n opts cs F, let s := after db ops in
  Forall (op_env ends_ok) ops -> calm w ->
  Forall config_command cs -> fresh w db cs = (F, None) -> all_running F ->
  (forall m j, concerned n m -> jail_of s m = Some j -> running j) ->
  n = "--all" \/ In n (names s) \/ In "--if-exists" opts ->
  (forall m, In m (added cs) -> concerned n m \/ ~ In m (names s)) ->
  exists s', proceed w (reload n opts cs) s = (s', (0, Good (VTxt "OK"))) /\ settled s' /\ reloaded n opts F s s'.
Proof.
  intros db ops w n opts cs F s E CW CC FR RF RUN EX AD.
  assert (FR' : exists F', fresh w (s_db s) cs = (F', None) /\ F' = F).
  { exists F. split; [|reflexivity]. replace (s_db s) with db; [exact FR|]. symmetry. apply (run_db ops (srv_init db)). }
  destruct FR' as (F' & FR' & ->).
  destruct (reload_ok w n opts cs s F) as (s' & H1 & H2 & H3); auto.
  - apply inv_after.
  - now apply settled_after.
  - destruct EX as [EX|[EX|EX]]; auto. right. left. now apply jail_of_names.
  - intros m H. destruct (AD m H) as [H'|H']; [now left|right]. rewrite jail_of_names in H'. destruct (jail_of s m); [|reflexivity].
    elim H'. eauto.
  - exists s'. split; [|auto]. unfold proceed. now rewrite H1.
Qed.

(** In particular, after a reload of all jails, the jails are exactly the ones named, and run. *)
Theorem C42_named : forall db ops w opts cs F, let s := after db ops in
  Forall (op_env ends_ok) ops -> calm w ->
  Forall config_command cs -> fresh w db cs = (F, None) -> all_running F -> all_running s ->
  exists s', proceed w (reload "--all" opts cs) s = (s', (0, Good (VTxt "OK"))) /\ settled s'
    /\ (forall m, In m (names s') <-> In m (added cs)) /\ all_running s'.
Proof.
  intros db ops w opts cs F s E CW CC FR RF RS.
  destruct (C42_reload db ops w "--all" opts cs F E CW CC FR RF) as (s' & H1 & H2 & H3).
  - intros m j _. apply RS.
  - now left.
  - intros m _. left. now left.
  - pose proof CW as (_ & DB & _).
    assert (N : names F = added cs) by (apply (names_stream w cs CC DB (set_quiet true (srv_init db)) F eq_refl FR)).
    exists s'. split; [exact H1|]. split; [exact H2|].
    assert (G : forall m, In m (names s') <-> In m (names F)) by (intros m; apply (re_names _ _ _ _ _ H3); left; now left).
    split; [intros m; rewrite G, N; reflexivity|]. intros m j Lj. apply (re_running _ _ _ _ _ H3 m j); [|exact Lj].
    apply G, jail_of_names. eauto.
Qed.

(** A reload of one jail with commands about this jail leaves all others as they are: in any
    world, and also if it fails. *)
Theorem C42_one : forall db ops w n opts cs m, let s := after db ops in
  Forall (op_env ends_ok) ops -> n <> "--all" -> m <> n ->
  Forall (fun c => about n c \/ exists r, c = A (T "config-error" :: r)) cs ->
  let s' := fst (proceed w (reload n opts cs) s) in
  jail_of s' m = jail_of s m /\ (In m (s_enabled s') <-> In m (s_enabled s)).
Proof.
  intros db ops w n opts cs m s E N1 N2 F. cbv zeta. rewrite proceed_fst. apply single_others; auto.
  - apply inv_after.
  - now apply settled_after.
Qed.

(** A reload of an unknown jail, without --if-exists, is refused and changes nothing. *)
Theorem C42_unknown : forall db ops w n opts cs, let s := after db ops in
  Forall (op_env ends_ok) ops -> ends_ok w -> n <> "--all" -> ~ In n (names s) -> ~ In "--if-exists" opts ->
  exists s', proceed w (reload n opts cs) s = (s', (1, Bad (EUnknown n))) /\ forall m, jail_of s' m = jail_of s m.
Proof.
  intros db ops w n opts cs s E EW NA NN NI. destruct (settled_after db ops E) as (Q & R & L). fold s in Q, R, L.
  assert (I : inv s) by apply inv_after.
  unfold proceed, reload. rewrite handler_reload. unfold reload_middle. rewrite reload_begin_eq by exact R. unfold prelude.
  change "--all" with all_jails in NA. apply eqb_neq in NA. rewrite NA. cbn [negb].
  assert (Ln : lookup (set_quiet true s) n = None).
  { change (jail_of s n = None). destruct (jail_of s n) eqn:X; [|reflexivity]. elim NN. apply jail_of_names. eauto. }
  rewrite Ln, opt_in_texts. apply inb_false in NI. rewrite NI.
  destruct (reload_end_ok w (set_quiet false (set_quiet true s)) EW) as (s' & H1 & H2 & _).
  { apply inv_quiet, inv_quiet, I. }
  rewrite H1. exists s'. split; [reflexivity|]. intros m. rewrite H2. cbn [set_quiet s_reload]. rewrite R. cbn [dmem dget].
  change (jail_of (set_quiet false (set_quiet true s)) m) with (jail_of s m). destruct (jail_of s m) as [j|] eqn:Lj; [|reflexivity].
  cbn. now rewrite (filter_end_id j (L m j Lj)).
Qed.

Definition started : list op := [Cmd good_env (server_stream two_jails); Bans "sshd" "192.0.2.1"; Bans "web" "192.0.2.2"].
Definition conf2 : list arg :=
  [add "sshd" "polling"; add "web" "systemd"; add "mail" "auto"; set "sshd" "addlogpath" ["/var/log/auth"]; set "sshd" "findtime" ["60"];
   start "sshd"; start "web"; start "mail"].

Example C42_demo :
  Forall (op_env ends_ok) started /\ calm good_env /\ Forall config_command conf2
  /\ (exists F, fresh good_env true conf2 = (F, None) /\ all_running F) /\ all_running (after true started)
  /\ let s' := fst (proceed good_env (reload "--all" [] conf2) (after true started)) in
     map (fun nj => (fst nj, j_no (snd nj), j_bans (snd nj), j_opts (snd nj))) (s_jails s')
     = [("sshd", 1, ["192.0.2.1"], [("maxretry", "3"); ("findtime", "60")]); ("web", 3, [], []); ("mail", 4, [], [])]
     /\ s_events s' = [Created 1 "sshd"; Created 2 "web"; Started 1; Started 2; Stopped 2; Created 3 "web"; Created 4 "mail"; Started 3; Started 4].
Proof.
  split; [repeat constructor|]. split; [repeat split|]. split.
  { repeat apply Forall_cons; try apply Forall_nil;
      first [left; eexists _, _; reflexivity | right; left; eexists _, _; reflexivity
            | right; right; left; eexists _, _, _, _; (split; [reflexivity|]); (split; [now left|]); repeat split; discriminate]. }
  assert (RUN : forall s, forallb (fun nj => match j_filter (snd nj), j_actions (snd nj) with TRun, TRun => true | _, _ => false end) (s_jails s) = true -> all_running s).
  { intros s H n j L. apply dget_In in L. rewrite forallb_forall in H. specialize (H _ L). cbn in H. unfold running.
    destruct (j_filter j), (j_actions j); try discriminate. auto. }
  split; [eexists; split; [vm_compute; reflexivity|apply RUN; vm_compute; reflexivity]|].
  split; [apply RUN; vm_compute; reflexivity|]. vm_compute. split; reflexivity.
Qed.

(** What C42 cannot say without its hypotheses. *)

(** One error in the stream, here a bad regular expression of the new jail: since the client puts
    all starts last, every jail that was running is stopped and removed. *)
Definition strict_env : env :=
  MkEnv (fun _ _ => true) (fun _ => true) (fun _ => true) (fun _ => true) (fun _ => true)
        (fun _ => true) (fun _ => true) (fun r => negb (eqb r "(")) (fun _ => true)
        (fun _ v => Some v) (fun _ => Some 0) (fun _ _ => false) (fun _ => Good VNone).
Theorem C42_error_refuted : exists cs, let s := after true started in
  all_running s /\ names s = ["sshd"; "web"] /\ added cs = ["sshd"; "web"; "mail"] /\
  let '(s', (code, _)) := proceed strict_env (reload "--all" [] cs) s in
  code = 1 /\ names s' = ["mail"] /\ (exists j, jail_of s' "mail" = Some j /\ j_filter j = TNew).
Proof.
  exists [add "sshd" "polling"; add "web" "polling"; add "mail" "polling"; set "mail" "addfailregex" ["("]; start "sshd"; start "web"; start "mail"].
  split; [|vm_compute; repeat split; eexists; split; reflexivity].
  intros n j L. apply dget_In in L. vm_compute in L. destruct L as [L|[L|[]]]; injection L as <- <-; split; reflexivity.
Qed.

(** A jail whose threads have died is named in the configuration and is removed nevertheless. *)
Theorem C42_dead_refuted : exists ops cs, let s := after true ops in
  names s = ["sshd"; "web"] /\
  let '(s', (code, _)) := proceed good_env (reload "--all" [] cs) s in
  added cs = ["sshd"; "web"] /\ code = 1 /\ names s' = ["web"].
Proof.
  exists (started ++ [Dies "sshd" true; Dies "sshd" false]).
  exists [add "sshd" "polling"; add "web" "polling"; start "web"; start "sshd"]. vm_compute. repeat split.
Qed.

(** A setting that is in the old configuration and not in the new one keeps its old value. *)
Theorem C42_defaults_refuted : exists cs, let s := after true started in
  let '(s', (code, _)) := proceed good_env (reload "--all" [] cs) s in
  code = 0 /\ (exists j, jail_of s' "sshd" = Some j /\ dget "maxretry" (j_opts j) = Some "3")
  /\ (exists j, jail_of (fst (fresh good_env true cs)) "sshd" = Some j /\ dget "maxretry" (j_opts j) = None).
Proof. exists one_jail. vm_compute. split; [reflexivity|]. split; eexists; split; reflexivity. Qed.

(** A stream in a stream: the quiet mode ends with the inner one, so that a command that is
    skipped in quiet mode ("attempt") is executed after it; a reload in a reload is refused, but
    its end removes the jails of the outer one. *)
Theorem C42_nested_refuted : exists cs, let s := after true started in
  names s = ["sshd"; "web"] /\ added cs = ["sshd"; "web"] /\
  let '(s', (code, r)) := proceed good_env (reload "--all" [] cs) s in
  code = 1 /\ r = Bad EProgress /\ names s' = [].
Proof.
  exists [add "sshd" "polling"; add "web" "polling"; reload "--all" [] []; start "sshd"; start "web"]. vm_compute. repeat split.
Qed.

(** A log file taken away and added again during the reload is lost at the end. *)
Theorem C42_dellog_refuted : exists cs, let s := after true started in
  let '(s', (code, _)) := proceed good_env (reload "--all" [] cs) s in
  code = 0 /\ (exists j, jail_of s' "web" = Some j /\ j_logs j = [])
  /\ (exists j, jail_of (fst (fresh good_env true cs)) "web" = Some j /\ j_logs j = ["/var/log/web"]).
Proof.
  exists [add "web" "polling"; set "web" "dellogpath" ["/var/log/web"]; set "web" "addlogpath" ["/var/log/web"]; start "web"].
  vm_compute. split; [reflexivity|]. split; eexists; split; reflexivity.
Qed.

(** A jail named like a setting of the server is added, but its settings go to the server. *)
Theorem C42_setting_refuted : exists cs, added cs = ["loglevel"] /\
  snd (fresh good_env true cs) = None /\
  exists j, jail_of (fst (fresh good_env true cs)) "loglevel" = Some j /\ j_logs j = [] /\ j_opts j = [].
Proof.
  exists [add "loglevel" "polling"; set "loglevel" "addlogpath" ["/var/log/x"]; set "loglevel" "bantime" ["60"]; start "loglevel"].
  vm_compute. repeat split. eexists. repeat split.
Qed.

(** * C61: banning and unbanning by command *)

(** "unban IP ...": in every jail each ID is taken from the bans if it is there, else all bans in
    it (a subnet or host name); nothing else changes; the answer is the number of bans removed. *)
Theorem C61_unban : forall db ops w ips, ips <> [] -> ips <> ["--all"] -> let s := after db ops in
  exists s', proceed w (unban ips) s = (s', (0, Good (VNum (total_bans s - total_bans s'))))
    /\ but_bans (left_over w ips) s s' /\ (forall n x, In x ips -> ~ is_banned s' n x)
    /\ s_events s' = s_events s /\ s_enabled s' = s_enabled s.
Proof.
  intros db ops w ips N1 N2 s. destruct (unban_everywhere w (Some ips) s (inv_after db ops)) as (s' & E & I & B & R & V & EN).
  exists s'. unfold proceed. rewrite handler_unban by assumption. rewrite E. split; [reflexivity|]. split; [exact B|].
  split; [|auto]. intros n x H (j & L & K). rewrite (B n) in L. destruct (jail_of s n) as [i|]; [|discriminate]. injection L as <-.
  cbn in K. exact (left_over_gone w ips (j_bans i) x H K).
Qed.

(** "unban --all": no bans are left; the answer is how many there were. *)
Theorem C61_unban_all : forall db ops w, let s := after db ops in
  exists s', proceed w (unban ["--all"]) s = (s', (0, Good (VNum (total_bans s))))
    /\ but_bans (fun _ => []) s s' /\ (forall n x, ~ is_banned s' n x)
    /\ s_events s' = s_events s /\ s_enabled s' = s_enabled s.
Proof.
  intros db ops w s. destruct (unban_everywhere w None s (inv_after db ops)) as (s' & E & I & B & R & V & EN).
  assert (Z0 : total_bans s' = 0).
  { rewrite (total_bans_names s' (i_wf s' I)). induction (names s') as [|n r IH]; [reflexivity|]. cbn [map sum]. rewrite IH.
    unfold bans_at. rewrite (B n). destruct (jail_of s n); reflexivity. }
  exists s'. unfold proceed, unban. change (handler w (A (T "unban" :: map T ["--all"])) s) with (set_unban w None None true s).
  rewrite E, Z0, Z.sub_0_r. split; [reflexivity|]. split; [exact B|]. split; [|auto].
  intros n x (j & L & K). rewrite (B n) in L. destruct (jail_of s n); [|discriminate]. injection L as <-. destruct K.
Qed.

(** "banned": the bans of each jail; "banned IP ...": for each, the jails in which it is banned. *)
Theorem C61_banned : forall db ops w, let s := after db ops in
  (exists l, proceed w (banned []) s = (s, (0, Good (VMap l))) /\ map fst l = names s
     /\ forall n b, In (n, b) l <-> exists j, jail_of s n = Some j /\ j_bans j = b)
  /\ forall ips, ips <> [] -> exists l, proceed w (banned ips) s = (s, (0, Good (VTable l))) /\
     Forall2 (fun x ns => forall n, In n ns <-> is_banned s n x) ips l.
Proof.
  intros db ops w s. pose proof (i_wf s (inv_after db ops)) as W. split.
  - exists (map (fun nj => (fst nj, j_bans (snd nj))) (s_jails s)). split; [reflexivity|]. split; [now rewrite map_map|].
    intros n b. rewrite in_map_iff. split.
    + intros ([m j] & E & H). injection E as <- <-. exists j. split; [now apply In_dget|reflexivity].
    + intros (j & L & <-). exists (n, j). split; [reflexivity|]. now apply dget_In.
  - intros ips N. unfold proceed, banned.
    change (handler w (A (T "banned" :: map T ips)) s) with (s, match texts (map T ips) with None => Bad EType | Some l => Good (banned_all l s) end).
    rewrite texts_map. unfold banned_all. destruct ips as [|x0 r0]; [congruence|]. clear N. eexists. split; [reflexivity|].
    generalize (x0 :: r0). intros l. induction l as [|x r IH]; cbn [map]; constructor; [|exact IH].
    intros n. rewrite in_map_iff. unfold is_banned. split.
    + intros ([m j] & E & H). cbn in E. subst m. apply filter_In in H as [H1 H2]. exists j. split; [now apply In_dget|now apply inb_In].
    + intros (j & L & H). exists (n, j). split; [reflexivity|]. apply filter_In. split; [now apply dget_In|now apply inb_In].
Qed.

(** "set JAIL banip IP ...": the IDs are banned in this jail, in addition to what was; the answer
    is how many of them were not. *)
Theorem C61_banip : forall db ops w n ips j, let s := after db ops in ~ In n server_settings -> jail_of s n = Some j ->
  exists s' l, proceed w (set n "banip" ips) s = (s', (0, Good (VNum (count l - count (j_bans j)))))
    /\ jail_of s' n = Some (with_bans l j) /\ (forall x, In x l <-> In x (j_bans j) \/ In x ips) /\ NoDup l
    /\ forall m, m <> n -> jail_of s' m = jail_of s m.
Proof.
  intros db ops w n ips j s NS L. pose proof (i_logs s (inv_after db ops) n j L) as (_ & _ & _ & NB).
  pose proof (NoDup_ban_list ips (j_bans j) 0 NB) as ND.
  destruct (ban_list ips (j_bans j) 0) as [l c] eqn:E. destruct (ban_list_spec ips (j_bans j) 0 l c NB E) as (H1 & H2 & _).
  exists (put n (with_bans l j) s), l. split; [|split; [rewrite jail_of_put, eqb_refl; reflexivity|split; [exact H1|split; [exact ND|]]]].
  - unfold proceed, set. change (handler w (A (T "set" :: T n :: T "banip" :: map T ips)) s) with (command_set w false (T n :: T "banip" :: map T ips) s).
    unfold command_set. apply inb_false in NS. rewrite NS. unfold set_key.
    change (eqb "banip" "banip") with true.
    change (eqb "banip" "idle") with false. change (eqb "banip" "addignoreip") with false. change (eqb "banip" "delignoreip") with false.
    change (eqb "banip" "addlogpath") with false. change (eqb "banip" "dellogpath") with false.
    change (eqb "banip" "addfailregex" || eqb "banip" "addignoreregex") with false. change (eqb "banip" "delfailregex" || eqb "banip" "delignoreregex") with false.
    change (is_value_setting "banip") with false. cbv iota. rewrite texts_map. change (lookup s n) with (jail_of s n). rewrite L, E.
    rewrite H2. do 4 f_equal.
  - intros m N. rewrite jail_of_put. apply eqb_neq in N. now rewrite N.
Qed.

(** "set JAIL unbanip [--report-absent] IP ...": the same as "unban" for one jail; an ID that hits
    nothing is an error only if that is asked for, and the other IDs are unbanned all the same. *)
Theorem C61_unbanip : forall db ops w n ips j, let s := after db ops in ~ In n server_settings -> jail_of s n = Some j ->
  (forall x r, ips = x :: r -> x <> "--report-absent") -> ips <> [] ->
  let s' := put n (with_bans (left_over w ips (j_bans j)) j) s in
  proceed w (set n "unbanip" ips) s = (s', (0, Good (VNum (count (j_bans j) - count (left_over w ips (j_bans j))))))
  /\ (let a := snd (proceed w (set n "unbanip" ("--report-absent" :: ips)) s) in
      fst (proceed w (set n "unbanip" ("--report-absent" :: ips)) s) = s'
      /\ (a = (1, Bad EValue) <->
          exists p x q, ips = p ++ x :: q /\ (forall y, In y (left_over w p (j_bans j)) -> hit w x (left_over w p (j_bans j)) y = false))
      /\ (a = (1, Bad EValue) \/ a = (0, Good (VNum (count (j_bans j) - count (left_over w ips (j_bans j))))))).
Proof.
  intros db ops w n ips j s NS L NX NE s'. pose proof (i_logs s (inv_after db ops) n j L) as (_ & _ & _ & NB).
  assert (SK : forall vs, proceed w (set n "unbanip" vs) s =
    match (match map T vs with
           | [] => (s, Bad EIndex)
           | x :: r => let report := match x with T t => eqb t "--report-absent" | A _ => false end in
                       match texts (if report then r else map T vs) with
                       | None => (s, Bad EType)
                       | Some l => set_unban w (Some n) (Some l) (negb report) s
                       end
           end) with (s', Good v) => (s', (0, Good v)) | (s', Bad e) => (s', (1, Bad e)) end).
  { intros vs. unfold proceed, set.
    change (handler w (A (T "set" :: T n :: T "unbanip" :: map T vs)) s) with (command_set w false (T n :: T "unbanip" :: map T vs) s).
    unfold command_set. apply inb_false in NS. rewrite NS. unfold set_key.
    change (eqb "unbanip" "banip") with false. change (eqb "unbanip" "unbanip") with true.
    change (eqb "unbanip" "idle") with false. change (eqb "unbanip" "addignoreip") with false. change (eqb "unbanip" "delignoreip") with false.
    change (eqb "unbanip" "addlogpath") with false. change (eqb "unbanip" "dellogpath") with false.
    change (eqb "unbanip" "addfailregex" || eqb "unbanip" "addignoreregex") with false. change (eqb "unbanip" "delfailregex" || eqb "unbanip" "delignoreregex") with false.
    change (is_value_setting "unbanip") with false. cbv iota. reflexivity. }
  assert (UN : forall b, set_unban w (Some n) (Some ips) b s =
     match unban_list w b ips (j_bans j) 0 false with
     | (l, Some c) => (put n (with_bans l j) s, Good (VNum c)) | (l, None) => (put n (with_bans l j) s, Bad EValue) end).
  { intros b. unfold set_unban. change (lookup s n) with (jail_of s n). rewrite L. cbn [unban_in remove_banned]. change (lookup s n) with (jail_of s n). rewrite L.
    now destruct (unban_list w b ips (j_bans j) 0 false) as [l [c|]]. }
  split.
  - rewrite SK. destruct ips as [|x r]; [congruence|]. cbn [map]. specialize (NX x r eq_refl). apply eqb_neq in NX. cbv zeta. rewrite NX.
    change (T x :: map T r) with (map T (x :: r)). rewrite texts_map. cbn [negb]. rewrite UN.
    destruct (unban_list_spec w true (x :: r) (j_bans j) 0 false NB) as (H1 & H2 & _). specialize (H2 eq_refl eq_refl).
    destruct (unban_list w true (x :: r) (j_bans j) 0 false) as [l c]. cbn [fst snd] in *. subst l c. reflexivity.
  - cbv zeta. rewrite SK. cbn [map]. cbv zeta. rewrite eqb_refl, texts_map. cbn [negb]. rewrite UN.
    destruct (unban_list_spec w false ips (j_bans j) 0 false NB) as (H1 & _ & H3). destruct (H3 eq_refl) as [H4 H5]. cbn [orb] in H4, H5.
    destruct (unban_list w false ips (j_bans j) 0 false) as [l c]. cbn [fst snd] in *. subst l.
    assert (M : misses w ips (j_bans j) = true <-> exists p x q, ips = p ++ x :: q /\ (forall y, In y (left_over w p (j_bans j)) -> hit w x (left_over w p (j_bans j)) y = false)).
    { clear. generalize (j_bans j). induction ips as [|y r IH]; intros l; cbn [misses].
      - split; [discriminate|]. intros (p & x & q & E & _). now destruct p.
      - destruct (existsb (hit w y l) l) eqn:E; cbn [negb orb].
        + rewrite IH. split.
          * intros (p & x & q & -> & H). exists (y :: p), x, q. split; [reflexivity|exact H].
          * intros (p & x & q & E2 & H). destruct p as [|y' p]; injection E2 as <- ->.
            -- apply existsb_exists in E as (z & Z1 & Z2). specialize (H z Z1). cbn in H. congruence.
            -- exists p, x, q. split; [reflexivity|exact H].
        + split; [|reflexivity]. intros _. exists [], y, r. split; [reflexivity|]. cbn. intros z Z1.
          destruct (hit w y l z) eqn:H; [|reflexivity]. rewrite <- E. symmetry. apply existsb_exists. eauto. }
    split; [destruct c; reflexivity|]. rewrite <- M. split.
    + rewrite <- H4. destruct c; split; intros X; try discriminate X; reflexivity.
    + destruct (misses w ips (j_bans j)) eqn:M'.
      * left. rewrite (proj2 H4 eq_refl). reflexivity.
      * right. rewrite (H5 eq_refl). reflexivity.
Qed.

Example C61_demo :
  let s := after true (started ++ [Bans "web" "192.0.2.1"; Cmd good_env (set "web" "banip" ["192.0.2.1"; "192.0.2.3"])]) in
  snd (proceed good_env (banned ["192.0.2.1"; "192.0.2.9"]) s) = (0, Good (VTable [["sshd"; "web"]; []]))
  /\ snd (proceed good_env (unban ["192.0.2.1"; "192.0.2.9"]) s) = (0, Good (VNum 2))
  /\ snd (proceed good_env (unban ["--all"]) s) = (0, Good (VNum 4))
  /\ snd (proceed good_env (set "web" "unbanip" ["--report-absent"; "192.0.2.9"; "192.0.2.3"]) s) = (1, Bad EValue).
Proof. vm_compute. repeat split. Qed.

Print Assumptions C40_answers.
Print Assumptions C40_closed.
Print Assumptions C40_closed_refuted.
Print Assumptions C40_readonly.
Print Assumptions C40_stream.
Print Assumptions C40_failed_setting.
Print Assumptions C41_unique.
Print Assumptions C41_add_exists.
Print Assumptions C41_add_new.
Print Assumptions C41_add_unnoted.
Print Assumptions C41_unknown.
Print Assumptions C41_others.
Print Assumptions C41_threads.
Print Assumptions C41_database.
Print Assumptions C41_database_refuted.
Print Assumptions C41_registry.
Print Assumptions C42_reload.
Print Assumptions C42_named.
Print Assumptions C42_one.
Print Assumptions C42_unknown.
Print Assumptions C42_error_refuted.
Print Assumptions C42_dead_refuted.
Print Assumptions C42_defaults_refuted.
Print Assumptions C42_nested_refuted.
Print Assumptions C42_dellog_refuted.
Print Assumptions C42_setting_refuted.
Print Assumptions C61_unban.
Print Assumptions C61_unban_all.
Print Assumptions C61_banned.
Print Assumptions C61_banip.
Print Assumptions C61_unbanip.
