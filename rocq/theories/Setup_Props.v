(** From the configuration to the jails of the server: C91 - C93. *)
From Verif Require Import Base Text Options_Model Options_Spec.
From Verif Require Stream_Model Stream_Spec Stream_Props.
From Verif Require Import Server_Model Server_Spec Server_Proofs Server_Proofs2 Server_Proofs4 Server_Proofs5 Server_Proofs6 Server_Props Setup_Model Setup_Spec.
From Verif Require Import Setup_Proofs2 Setup_Proofs3 Setup_Proofs4 Setup_Proofs5 Setup_Proofs6 Setup_Proofs7.
Local Open Scope string_scope.
Local Open Scope list_scope.
Local Open Scope Z_scope.

(** ** C91: what the configuration says is what the started server has *)
(** The settings of the server itself come first: those of the command line, else of fail2ban.conf, else the
    defaults; then the jails are set up, and after all of them are set up they are started. *)
Theorem C91_settings C sel gs : well_named C -> read_config C sel = Some gs ->
  exists M s starts, cf_main C = Some M
    /\ gs = map (fun kv => GSet (fst kv) (snd kv)) (server_settings_of C M) ++ map GJail s ++ map (fun n => GJail (Stream_Model.CStart n)) starts
    /\ Forall (fun c => Stream_Spec.is_start c = false) s.
Proof.
  intros WN RC. destruct (read_config_parts C sel gs (wn_opts C WN) RC) as (M & secs & l & s & HM & Hs & JG & JC & ->).
  pose proof (Stream_Props.C73_stream (cf_env C) (cf_dump C) l) as PS. rewrite JC in PS. destruct PS as (_ & (parts & starts & Es & _ & NS & _) & _).
  exists M, (concat parts), starts. split; [exact HM|]. split; [|exact NS]. rewrite Es, map_app, map_map. reflexivity.
Qed.

Lemma start_cases X o o' r : command X ["start"] o = (o', r) ->
  o' = o /\ r = false
  \/ exists gs S1 e, w_server o = None /\ read_config (x_config X) None = Some gs /\ (x_force X = true \/ w_socket o = false) /\ x_comes_up X = true
     /\ stream (x_env X) (map encode_cmd gs) (set_quiet true (srv_init (x_db X))) = (S1, e)
     /\ (e = None -> o' = mkWorld (Some (set_quiet false S1)) false /\ r = true)
     /\ (e <> None -> o' = mkWorld (if x_background X then Some (set_quiet false S1) else None) false /\ r = false).
Proof.
  change (command X ["start"] o) with (start_server X o). unfold start_server, prepare_start. destruct (w_server o) as [s0|] eqn:Ws; [intros [= <- <-]; now left|].
  destruct (read_config (x_config X) None) as [gs|] eqn:RC; [|intros [= <- <-]; now left]. destruct (negb (x_force X) && w_socket o) eqn:Fo; [intros [= <- <-]; now left|].
  destruct (x_comes_up X) eqn:Cu; [|intros [= <- <-]; now left]. intros H. right. exists gs.
  cbn [process_cmd] in H. unfold proceed in H. rewrite handler_stream in H.
  destruct (stream (x_env X) (map encode_cmd gs) (set_quiet true (srv_init (x_db X)))) as [S1 e] eqn:St. exists S1, e. split; [reflexivity|]. split; [reflexivity|].
  split; [destruct (x_force X); [now left|right; exact Fo]|]. split; [reflexivity|]. split; [reflexivity|].
  change (is_quit (A [T "server-stream"; A (map encode_cmd gs)])) with false in H. change (is_quit (A [T "server-status"])) with false in H.
  destruct e as [e|]; cbn [andb Z.eqb] in H.
  - change (handler (x_env X) (A [T "server-status"]) (set_quiet false S1)) with (set_quiet false S1, Good (VTxt "Server ready")) in H. cbn in H. injection H as <- <-.
    split; [discriminate|]. intros _. now destruct (x_background X).
  - change (handler (x_env X) (A [T "server-status"]) (set_quiet false S1)) with (set_quiet false S1, Good (VTxt "Server ready")) in H. cbn in H. injection H as <- <-. split; [auto|contradiction].
Qed.

(** If fail2ban-client start succeeds, the server has exactly the jails that are enabled in the
    configuration.  Each of them runs, has no bans, and has the backend, the regular expressions, the
    addresses to ignore, the log files and the settings the configuration says, and no others.  Its state is
    the one of a new server after this one command. *)
Theorem C91_start X o o' : let C := x_config X in
  well_named C -> Stream_Spec.gives_dicts (cf_env C) -> command X ["start"] o = (o', true) ->
  exists S gs, w_server o' = Some S /\ read_config C None = Some gs /\ S = after (x_db X) [Cmd (x_env X) (server_stream (map encode_cmd gs))]
    /\ (forall m, In m (names S) <-> exists n c F s, m = str n /\ asked C None n /\ enabled C n c F s)
    /\ (forall n c F s, asked C None n -> enabled C n c F s ->
          exists J, jail_of S (str n) = Some J /\ running J /\ j_idle J = false /\ j_bans J = [] /\ NoDup (j_logs J) /\ set_up (cf_env C) (x_env X) c F J).
Proof.
  intros C WN GD H. destruct (start_cases X o o' true H) as [[_ ?]|(gs & S1 & e & _ & RC & _ & _ & St & HN & HS)]; [discriminate|].
  destruct e as [e|]; [destruct HS; discriminate|]. destruct (HN eq_refl) as [-> _]. exists (set_quiet false S1), gs. split; [reflexivity|]. split; [exact RC|].
  destruct (whole C None (x_env X) gs WN GD RC (set_quiet true (srv_init (x_db X))) S1 eq_refl eq_refl St) as [W1 W2].
  split; [|split].
  - unfold after, sv_run. cbn [fold_left sv_step]. unfold proceed, server_stream. rewrite handler_stream, St. reflexivity.
  - intros m. split; [apply W2|]. intros (n & c & F & s & -> & A & E). destruct (W1 n c F s A E) as (J & HJ & _). apply jail_of_names. exists J. exact HJ.
  - exact W1.
Qed.

(** A valid configuration with words the server knows is taken by a server that accepts every value: start
    succeeds, if no server is there and nothing is in the way. *)
Theorem C91_accepted X o gs : let C := x_config X in
  well_named C -> Stream_Spec.gives_dicts (cf_env C) -> words_known C -> takes_all (x_env X) -> threads_ok (x_env X) -> db_ok (x_env X) ->
  read_config C None = Some gs -> w_server o = None -> (x_force X = true \/ w_socket o = false) -> x_comes_up X = true ->
  snd (command X ["start"] o) = true.
Proof.
  intros C WN GD WK TA TH DB RC NS SO CU. destruct (accepted C None (x_env X) gs (set_quiet true (srv_init (x_db X))) WN GD WK TA TH DB RC eq_refl eq_refl) as (S1 & HS).
  change (command X ["start"] o) with (start_server X o). unfold start_server, prepare_start. rewrite NS. fold C. rewrite RC, CU.
  replace (negb (x_force X) && w_socket o) with false by (destruct SO as [-> | ->]; [reflexivity|symmetry; apply andb_false_r]).
  cbn [process_cmd]. unfold proceed. rewrite handler_stream, HS. change (is_quit (A [T "server-stream"; A (map encode_cmd gs)])) with false. cbn [andb].
  change (handler (x_env X) (A [T "server-status"]) (set_quiet false S1)) with (set_quiet false S1, Good (VTxt "Server ready")). reflexivity.
Qed.

(** If start fails, no jail is started: what is there was there before, or is a new server (in the
    background only) none of whose jails has been started. *)
Theorem C91_all_or_nothing X o o' : let C := x_config X in
  well_named C -> Stream_Spec.gives_dicts (cf_env C) -> threads_ok (x_env X) -> command X ["start"] o = (o', false) ->
  o' = o \/ w_server o = None /\ (x_background X = false -> w_server o' = None)
            /\ forall S, w_server o' = Some S -> forall n J, jail_of S n = Some J -> j_filter J = TNew /\ j_actions J = TNew.
Proof.
  intros C WN GD TH H. destruct (start_cases X o o' false H) as [[-> _]|(gs & S1 & e & NS & RC & _ & _ & St & HN & HS)]; [now left|]. right.
  destruct e as [e|]; [|destruct (HN eq_refl); discriminate]. destruct HS as [-> _]; [discriminate|]. split; [exact NS|]. split; [intros ->; reflexivity|].
  intros S' E n J HJ. cbn [w_server] in E. destruct (x_background X); [injection E as <-|discriminate].
  exact (failed C None (x_env X) gs WN GD RC TH (set_quiet true (srv_init (x_db X))) S1 e eq_refl eq_refl St n J HJ).
Qed.

(** DEMO: a configuration with one good jail, one that is not enabled, one with a wrong filter, one without
    log files. *)
Definition demo_main : mainfile :=
  mkMain (fun k => if eqb k (tx "loglevel") then Stream_Model.GVal (tx "DEBUG") else Stream_Model.GNoOption)
         (Some (fun k => if eqb k (tx "stacksize") then Stream_Model.GVal (tx "5") else Stream_Model.GNoOption)) (fun _ => true).
Definition demo_config (E : Stream_Model.env) (secs : list text) : config :=
  mkConfig E (Some demo_main) (Some secs) [(tx "dbpurgeage", GV (Stream_Model.VText (tx "2d")))] false false false.
Definition C1 : config := demo_config Stream_Props.E1 Stream_Props.demo_names.
Definition X1 : setting := mkSetting C1 good_env false false true true.
Definition nothing : world := mkWorld None false.

Lemma demo_enabled jails filters actions secs n c F s :
  let C := demo_config (Stream_Props.demo_env jails filters actions) secs in
  enabled C n c F s -> In n (map fst jails).
Proof.
  intros C (R & En & _). destruct (Stream_Props.C74_jail _ _ _ _ R En) as (_ & _ & _ & kn & _ & H).
  specialize (H Stream_Model.TBool (tx "enabled") (Stream_Model.VBool false)).
  destruct (dget n jails) as [o|] eqn:D; [now apply dget_In in D; apply in_map with (f := fst) in D|]. exfalso.
  assert (I : In (Stream_Model.TBool, tx "enabled", Stream_Model.VBool false) Stream_Spec.jail_options) by (vm_compute; auto).
  specialize (H I). cbn [cf_env C demo_config Stream_Props.demo_env Stream_Model.e_get2] in H. unfold Stream_Props.demo_section in H. rewrite D in H.
  unfold Stream_Model.is_enabled, Stream_Model.vget in En. rewrite H in En. discriminate.
Qed.
Lemma demo_well jails filters actions secs : Stream_Props.nodupb secs = true -> forallb (fun n => negb (inb (str n) server_settings)) (map fst jails) = true ->
  well_named (demo_config (Stream_Props.demo_env jails filters actions) secs).
Proof.
  intros ND NS. constructor.
  - intros l [= <-]. now apply Stream_Props.nodupb_ok.
  - vm_compute. constructor; [intros []|constructor].
  - intros n c F s H. apply demo_enabled in H. apply (proj1 (forallb_forall _ _) NS) in H. apply negb_true_iff in H. now apply inb_false in H.
Qed.
Example C91_demo_hyps : well_named C1 /\ Stream_Spec.gives_dicts (cf_env C1) /\ words_known C1 /\ takes_all good_env /\ threads_ok good_env /\ db_ok good_env
  /\ exists gs, read_config C1 None = Some gs.
Proof.
  split; [apply demo_well; vm_compute; reflexivity|]. split; [apply Stream_Props.demo_dicts|]. split.
  - intros n c F s H. pose proof (demo_enabled _ _ _ _ _ _ _ _ H) as I. destruct H as (R & En & Cv & _).
    cbn [map fst In] in I. destruct I as [<- |[<- |[<- |[<- |[<- |[]]]]]].
    + assert (Ec : c = fst (fst Stream_Props.demo_sshd)) by (vm_compute in R; injection R as <-; vm_compute; reflexivity). subst c.
      assert (Es : s = snd Stream_Props.demo_sshd) by (vm_compute in Cv; injection Cv as <-; vm_compute; reflexivity). subst s.
      split; [discriminate|]. split.
      * assert (K : forallb (fun x => match Stream_Spec.key_of x with Some k => inb k Stream_Spec.commands | None => true end) (snd Stream_Props.demo_sshd) = true) by (vm_compute; reflexivity).
        intros x k I Hk. apply (proj1 (forallb_forall _ _) K) in I. rewrite Hk in I. now apply inb_In.
      * intros f t I. vm_compute in I. destruct I as [[= <- <-]|[]]. left. reflexivity.
    + vm_compute in R. injection R as <-. discriminate En.
    + vm_compute in R. discriminate.
    + vm_compute in R. injection R as <-. vm_compute in Cv. discriminate.
    + vm_compute in R. injection R as <-. vm_compute in Cv. discriminate.
  - split; [constructor; intros; cbn; try reflexivity; try discriminate; eauto|]. split; [intros n; split; reflexivity|]. split; [intros n; split; reflexivity|].
    eexists. vm_compute. reflexivity.
Qed.
Example C91_demo : exists S J, command X1 ["start"] nothing = (mkWorld (Some S) false, true) /\ names S = ["sshd"] /\ jail_of S "sshd" = Some J
  /\ running J /\ j_fail J = ["r1"; "r2"] /\ j_ignore J = ["own"] /\ j_ips J = ["127.0.0.1"; "::1"] /\ j_logs J = ["/var/log/auth.log"]
  /\ dget "maxretry" (j_opts J) = Some "5" /\ dget "bantime" (j_opts J) = Some "10m" /\ dget "maxlines" (j_opts J) = Some "10" /\ dget "findtime" (j_opts J) = None
  /\ map encode_cmd (map (fun kv => GSet (fst kv) (snd kv)) (server_settings_of C1 demo_main))
     = [A [T "set"; T "thread"; A [A [T "stacksize"; T "5"]]]; A [T "set"; T "syslogsocket"; T "auto"]; A [T "set"; T "loglevel"; T "DEBUG"]; A [T "set"; T "logtarget"; T "STDERR"];
        A [T "set"; T "allowipv6"; T "auto"]; A [T "set"; T "dbfile"; T "/var/lib/fail2ban/fail2ban.sqlite3"]; A [T "set"; T "dbpurgeage"; T "2d"]].
Proof.
  eexists. eexists. split; [vm_compute; reflexivity|]. split; [vm_compute; reflexivity|]. split; [vm_compute; reflexivity|]. split; [split; vm_compute; reflexivity|]. repeat split; vm_compute; reflexivity.
Qed.

(** Jails whose regular expressions the server takes, or not. *)
Definition demo_jail (f : string) : list (text * text) := [(tx "enabled", tx "yes"); (tx "filter", tx f); (tx "maxretry", tx "5"); (tx "logpath", tx "/var/log/auth.log")].
Definition demo_filter (r : string) : Stream_Model.dfile := Stream_Props.demo_file [(tx "failregex", tx r)] [].
Definition E4 (name : string) : Stream_Model.env :=
  Stream_Props.demo_env [(tx "good", demo_jail "f"); (tx name, demo_jail "g")] [(tx "f", demo_filter "r1"); (tx "g", demo_filter "(")] [].
Definition C4 (name : string) : config := demo_config (E4 name) [tx "good"; tx name].
Definition no_paren : env :=
  MkEnv (fun _ _ => true) (fun _ => true) (fun _ => true) (fun _ => true) (fun _ => true)
        (fun _ => true) (fun _ => true) (fun r => negb (eqb r "(")) (fun _ => true)
        (fun _ v => Some v) (fun _ => Some 0) (fun _ _ => false) (fun _ => Good VNone).

(** FINDING: one regular expression the server does not take, in one of the jails, keeps all jails from
    being started (although a jail with an unreadable filter is only skipped); in the background the server
    stays, with the jails added so far, none of which runs.  (client/fail2banclient.py:181-222,
    server/transmitter.py:119-129) *)
Theorem C91_one_wrong_refuted : exists C w,
  well_named C /\ takes_all (MkEnv (e_make w) (e_dbadd w) (e_dbdel w) (e_fstart w) (e_astart w) (e_begin w) (e_end w) (fun _ => true) (e_ip w) (e_value w) (e_int w) (e_in w) (e_other w))
  /\ (exists gs, read_config C None = Some gs)
  /\ command (mkSetting C w false false true true) ["start"] nothing = (nothing, false)
  /\ exists S J, command (mkSetting C w false true true true) ["start"] nothing = (mkWorld (Some S) false, false)
       /\ names S = ["good"; "bad"] /\ jail_of S "good" = Some J /\ j_filter J = TNew /\ j_actions J = TNew
       /\ snd (command (mkSetting C w false true true true) ["start"] (mkWorld (Some S) false)) = false.
Proof.
  exists (C4 "bad"), no_paren. split; [apply demo_well; vm_compute; reflexivity|]. split; [constructor; intros; cbn; try reflexivity; try discriminate; eauto|].
  split; [eexists; vm_compute; reflexivity|]. split; [vm_compute; reflexivity|].
  eexists. eexists. split; [vm_compute; reflexivity|]. repeat split; vm_compute; reflexivity.
Qed.

(** FINDING: a jail called like a setting of the server (here: loglevel) is added and started, but its
    settings are taken for settings of the server: it has no regular expression.
    (server/transmitter.py:168-217) *)
Theorem C91_name_refuted : exists C c F s S J,
  enabled C (tx "loglevel") c F s /\ command (mkSetting C good_env false false true true) ["start"] nothing = (mkWorld (Some S) false, true)
  /\ jail_of S "loglevel" = Some J /\ running J /\ Stream_Spec.lines_of (dget (tx "failregex") F) = [tx "("] /\ says (Stream_Model.j_opts c) F (tx "maxretry") = Some (Stream_Model.VInt 5)
  /\ dget "maxretry" (j_opts J) = None /\ j_fail J = [].
Proof.
  destruct (Stream_Props.demo_read (E4 "loglevel") (tx "loglevel")) as [[[c F] s]|] eqn:D; [|vm_compute in D; discriminate].
  exists (C4 "loglevel"), c, F, s. eexists. eexists. 
  split; [apply Stream_Props.demo_configured; [exact D| |]; vm_compute in D; injection D as <- <- <-; vm_compute; reflexivity|].
  split; [vm_compute; reflexivity|]. split; [vm_compute; reflexivity|]. split; [split; vm_compute; reflexivity|].
  vm_compute in D. injection D as <- <- <-. repeat split; vm_compute; reflexivity.
Qed.

(** ** C92: a reload makes the jails what the configuration says *)
Lemma str_of n : str (list_ascii_of_string n) = n.
Proof. apply string_of_list_ascii_of_string. Qed.

Lemma lists_same E c F jf j : lists_set E c F jf -> same_config j jf -> lists_set E c F j.
Proof.
  intros [L1 L2 L3 L4 L5] [S1 S2 S3 S4 S5 S6]. constructor; try congruence. destruct L5 as (files & L5 & L6). exists files. split; [exact L5|].
  intros p. rewrite S5, L6, S1. reflexivity.
Qed.

Lemma reload_reaches C w db ops t opts gs Fr : let S := after db ops in
  well_named C -> Stream_Spec.gives_dicts (cf_env C) -> t <> Some "--all" ->
  Forall (op_env ends_ok) ops -> calm w -> read_config C (the_section t) = Some gs -> fresh w db (map encode_cmd gs) = (Fr, None) ->
  (forall m J, in_reload t m -> jail_of S m = Some J -> running J) ->
  (forall n, t = Some n -> In n (names S) \/ In "--if-exists" opts) ->
  exists S', proceed w (reload (match t with Some n => n | None => "--all" end) opts (map encode_cmd gs)) S = (S', (0, Good (VTxt "OK"))) /\ settled S' /\ reloaded_to C w t opts S S'
    /\ reloaded (match t with Some n => n | None => "--all" end) opts Fr S S'.
Proof.
  intros S WN GD NA EO CW RC FR RUN EX. set (n0 := match t with Some n => n | None => "--all" end).
  destruct (whole C (the_section t) w gs WN GD RC (set_quiet true (srv_init db)) Fr eq_refl eq_refl FR) as [W1 W2].
  destruct (config_commands C (the_section t) gs WN GD RC) as [CC AD].
  assert (CO : forall m, concerned n0 m <-> in_reload t m).
  { intros m. unfold concerned, in_reload, n0. destruct t as [n|]; [|tauto]. split; [intros [H|H]; [congruence|exact H]|auto]. }
  assert (AK : forall n, asked C (the_section t) n -> in_reload t (str n)).
  { intros n [_ H]. unfold in_reload, the_section in *. destruct t as [x|]; [|exact I]. rewrite H. apply str_of. }
  destruct (C42_reload db ops w n0 opts (map encode_cmd gs) Fr EO CW CC FR) as (S' & H1 & H2 & H3).
  - intros m J HJ. assert (I : In m (names Fr)) by (apply jail_of_names; eauto). destruct (W2 m I) as (n & c & F & s & -> & A & E).
    destruct (W1 n c F s A E) as (J' & HJ' & R & _). congruence.
  - intros m J Hm HJ. apply (RUN m J); [now apply CO|exact HJ].
  - unfold n0. destruct t as [n|]; [right; destruct (EX n eq_refl); auto|now left].
  - intros m I. left. apply CO. destruct (AD m I) as (n & c & F & s & -> & A & _). now apply AK.
  - exists S'. split; [exact H1|]. split; [exact H2|]. split; [|exact H3]. constructor.
    + intros m Hm. rewrite (re_names _ _ _ _ _ H3 m) by (left; now apply CO). split; [apply W2|].
      intros (n & c & F & s & -> & A & E). destruct (W1 n c F s A E) as (J & HJ & _). apply jail_of_names. eauto.
    + intros m Hm. apply (re_others _ _ _ _ _ H3 m); [now rewrite CO|]. destruct (jail_of Fr m) as [J|] eqn:HJ; [|reflexivity]. exfalso. apply Hm.
      assert (I : In m (names Fr)) by (apply jail_of_names; eauto). destruct (W2 m I) as (n & c & F & s & -> & A & E). now apply AK.
    + intros n c F s J A E HJ NR BE. destruct (W1 n c F s A E) as (Jf & HF & RF & IF & _ & _ & SF & SO).
      destruct (re_kept _ _ _ _ _ H3 (str n) J Jf) as (J' & G1 & G2 & G3 & G4 & G5); auto; [apply CO; now apply AK|rewrite BE; symmetry; apply (su_backend _ _ _ _ SF)|].
      exists J'. split; [exact G1|]. split; [apply (re_running _ _ _ _ _ H3 (str n) J'); [apply jail_of_names; eauto|exact G1]|].
      split; [rewrite (sc_idle _ _ G4); exact IF|]. split; [exact G2|]. split; [exact G3|]. split; [eapply lists_same; eauto|].
      intros k. rewrite (G5 (str k)), (SO k). reflexivity.
    + intros n c F s A E NW. destruct (W1 n c F s A E) as (Jf & HF & RF & IF & _ & _ & SF & SO).
      destruct (re_new _ _ _ _ _ H3 (str n) Jf HF) as (J' & G1 & G2 & G3 & G4 & G5 & _).
      { intros J HJ. rewrite (su_backend _ _ _ _ SF). now apply NW. }
      exists J'. split; [exact G1|]. split; [apply (re_running _ _ _ _ _ H3 (str n) J'); [apply jail_of_names; eauto|exact G1]|].
      split; [rewrite (sc_idle _ _ G3); exact IF|]. split; [exact G2|]. split; [|exact G5]. split; [eapply lists_same; eauto|]. intros k. rewrite G4. apply SO.
Qed.

Lemma words_args l opts t : reload_words l opts t <-> exists ns, reload_args l = Some (opts, ns) /\ t = match ns with n :: _ => if eqb n all_jails then None else Some n | [] => None end.
Proof.
  unfold reload_words. revert opts. induction l as [|x l IH]; intros opts.
  - cbn. split.
    + intros [F H]. exists []. destruct t as [n|]; [destruct H as (H & _); destruct opts; discriminate|]. destruct H as [<- |H]; [auto|destruct opts; discriminate].
    + intros (ns & [= <- <-] & ->). split; [constructor|now left].
  - cbn [reload_args]. destruct (inb x reload_options) eqn:X.
    + apply inb_In in X. split.
      * intros [F H]. destruct opts as [|y opts].
        { exfalso. destruct t as [n|]; cbn [app] in H; [destruct H as (H & _ & H2); injection H as <- _; now apply H2|]. destruct H as [H|H]; [discriminate|]. injection H as -> _.
          vm_compute in X. repeat (destruct X as [X|X]; [discriminate X|]). exact X. }
        inversion F as [|? ? F1 F2]; subst.
        assert (K : x = y /\ Forall (fun x => In x reload_options) opts /\ match t with None => l = opts \/ l = opts ++ ["--all"] | Some n => l = opts ++ [n] /\ n <> "--all" /\ ~ In n reload_options end).
        { destruct t as [n|]; cbn [app] in H.
          - destruct H as (H & H2 & H3). injection H as -> ->. auto.
          - destruct H as [H|H]; injection H as -> ->; auto. }
        destruct K as (-> & K). apply IH in K as (ns & -> & K2). eauto.
      * intros (ns & H & E). destruct (reload_args l) as [[o' j']|] eqn:R; [|discriminate]. injection H as <- <-.
        destruct (proj2 (IH o')) as [F H]; [exists j'; auto|]. split; [now constructor|]. destruct t as [n|]; cbn [app].
        { destruct H as (-> & H). auto. }
        destruct H as [-> | ->]; auto.
    + apply inb_false in X. destruct l as [|y l].
      * split.
        { intros [F H]. exists [x]. destruct opts as [|z opts].
          - split; [reflexivity|]. destruct t as [n|]; cbn [app] in H.
            + destruct H as (H & H2 & _). injection H as ->. destruct (eqb_spec n all_jails) as [E|_]; [contradiction|reflexivity].
            + destruct H as [H|H]; [discriminate|]. injection H as ->. reflexivity.
          - exfalso. inversion F as [|? ? F1 F2]; subst. apply X. destruct t as [n|]; cbn [app] in H; [destruct H as (H & _); injection H as -> _; exact F1|].
            destruct H as [H|H]; injection H as -> _; exact F1. }
        { intros (ns & [= <- <-] & ->). split; [constructor|]. destruct (eqb_spec x all_jails) as [E|E]; [right; now rewrite E|]. cbn [app]. auto. }
      * split; [|intros (ns & H & _); discriminate]. intros [F H]. exfalso. destruct opts as [|z opts].
        { destruct t as [n|]; cbn [app] in H; [destruct H as (H & _); discriminate|]. destruct H as [H|H]; discriminate. }
        inversion F as [|? ? F1 F2]; subst. apply X. destruct t as [n|]; cbn [app] in H; [destruct H as (H & _); injection H as -> _; exact F1|].
        destruct H as [H|H]; injection H as -> _; exact F1.
Qed.

Lemma reload_sent X l opts t gs o S : reload_words l opts t -> w_server o = Some S -> read_config (x_config X) (the_section t) = Some gs ->
  command X ("reload" :: l) o =
  let '(S', (code, _)) := proceed (x_env X) (reload (match t with Some n => n | None => "--all" end) opts (map encode_cmd gs)) S in
  (mkWorld (Some S') (w_socket o), code =? 0).
Proof.
  intros RW HS RC. apply words_args in RW as (ns & RA & Et).
  assert (E : command X ("reload" :: l) o = reload_server X l o) by (destruct l; reflexivity). rewrite E. clear E. unfold reload_server. rewrite RA, HS. rewrite <- Et.
  unfold the_section in RC. rewrite RC.
  unfold send. cbn [process_cmd]. rewrite HS. unfold reload.
  change all_jails with "--all". destruct (proceed (x_env X) _ S) as [S' [code r]]. cbn [is_quit]. cbn [eqb andb]. destruct (code =? 0); reflexivity.
Qed.

(** fail2ban-client reload, in every state a server can be in whose jails (those the reload is about) run,
    with a configuration that a new server would take: it succeeds, no reload stays open, and the jails are
    as [reloaded_to] says: those that are enabled, as the configuration says. *)
Theorem C92_reload X db ops l opts t gs Fr sock : let S := after db ops in let C := x_config X in
  well_named C -> Stream_Spec.gives_dicts (cf_env C) -> reload_words l opts t ->
  Forall (op_env ends_ok) ops -> calm (x_env X) ->
  read_config C (the_section t) = Some gs -> fresh (x_env X) db (map encode_cmd gs) = (Fr, None) ->
  (forall m J, in_reload t m -> jail_of S m = Some J -> running J) ->
  (forall n, t = Some n -> In n (names S) \/ In "--if-exists" opts) ->
  exists S', command X ("reload" :: l) (mkWorld (Some S) sock) = (mkWorld (Some S') sock, true) /\ settled S' /\ reloaded_to C (x_env X) t opts S S'.
Proof.
  intros S C WN GD RW EO CW RC FR RUN EX.
  destruct (reload_reaches C (x_env X) db ops t opts gs Fr WN GD) as (S' & H1 & H2 & H3 & _); auto.
  { destruct RW as [_ RW]. destruct t as [n|]; [|discriminate]. destruct RW as (_ & N & _). congruence. }
  exists S'. rewrite (reload_sent X l opts t gs (mkWorld (Some S) sock) S RW eq_refl RC). fold S in H1. rewrite H1. auto.
Qed.

(** A configuration with words the server knows is taken, if the server accepts every value. *)
Theorem C92_accepted X db ops l opts t gs sock : let S := after db ops in let C := x_config X in
  well_named C -> Stream_Spec.gives_dicts (cf_env C) -> words_known C -> takes_all (x_env X) -> reload_words l opts t ->
  Forall (op_env ends_ok) ops -> calm (x_env X) -> read_config C (the_section t) = Some gs ->
  (forall m J, in_reload t m -> jail_of S m = Some J -> running J) ->
  (forall n, t = Some n -> In n (names S) \/ In "--if-exists" opts) ->
  exists S', command X ("reload" :: l) (mkWorld (Some S) sock) = (mkWorld (Some S') sock, true) /\ settled S' /\ reloaded_to C (x_env X) t opts S S'.
Proof.
  intros S C WN GD WK TA RW EO CW RC RUN EX. pose proof CW as (TH & DB & _).
  destruct (accepted C (the_section t) (x_env X) gs (set_quiet true (srv_init db)) WN GD WK TA TH DB RC eq_refl eq_refl) as (Fr & FR).
  exact (C92_reload X db ops l opts t gs Fr sock WN GD RW EO CW RC FR RUN EX).
Qed.

(** A second reload with the same configuration changes nothing of what can be seen of the jails. *)
Theorem C92_again X db ops l opts gs Fr sock S' S'' : let S := after db ops in let C := x_config X in
  well_named C -> Stream_Spec.gives_dicts (cf_env C) -> reload_words l opts None ->
  Forall (op_env ends_ok) ops -> calm (x_env X) ->
  read_config C None = Some gs -> fresh (x_env X) db (map encode_cmd gs) = (Fr, None) ->
  (forall m J, jail_of S m = Some J -> running J) ->
  command X ("reload" :: l) (mkWorld (Some S) sock) = (mkWorld (Some S') sock, true) ->
  command X ["reload"] (mkWorld (Some S') sock) = (mkWorld (Some S'') sock, true) ->
  (forall m, In m (names S'') <-> In m (names S')) /\
  forall m J', jail_of S' m = Some J' -> exists J'', jail_of S'' m = Some J'' /\ running J'' /\ j_no J'' = j_no J' /\ j_bans J'' = j_bans J'
    /\ same_config J'' J' /\ forall k, dget k (j_opts J'') = dget k (j_opts J').
Proof.
  intros S C WN GD RW EO CW RC FR RUN H1 H2.
  destruct (reload_reaches C (x_env X) db ops None opts gs Fr WN GD) as (T1 & G1 & _ & _ & G4); auto; try discriminate; [intros m J _; apply RUN|]. fold S in G1, G4.
  rewrite (reload_sent X l opts None gs (mkWorld (Some S) sock) S RW eq_refl RC), G1 in H1. injection H1 as ->.
  set (ops' := ops ++ [Cmd (x_env X) (reload "--all" opts (map encode_cmd gs))]).
  assert (ES : S' = after db ops').
  { unfold ops', after, sv_run. rewrite fold_left_app. cbn [fold_left sv_step]. change (fold_left (fun s o => fst (sv_step s o)) ops (srv_init db)) with S. now rewrite G1. }
  assert (CC : forall m, concerned "--all" m) by (intros; now left).
  assert (RUN' : forall m J, jail_of S' m = Some J -> running J).
  { intros m J HJ. apply (re_running _ _ _ _ _ G4 m J); [|exact HJ]. apply (re_names _ _ _ _ _ G4 m); [now left|]. apply jail_of_names. eauto. }
  rewrite ES in RUN'.
  destruct (reload_reaches C (x_env X) db ops' None [] gs Fr WN GD) as (T2 & K1 & _ & _ & K4); try discriminate; auto.
  { apply Forall_app. split; [exact EO|]. constructor; [apply CW|constructor]. }
  { intros m J _. apply RUN'. }
  rewrite <- ES in K1, K4. assert (RW0 : reload_words [] [] None) by (split; [constructor|now left]).
  rewrite (reload_sent X [] [] None gs (mkWorld (Some S') sock) S' RW0 eq_refl RC), K1 in H2. injection H2 as ->.
  split.
  - intros m. rewrite (re_names _ _ _ _ _ K4 m) by now left. symmetry. apply (re_names _ _ _ _ _ G4 m). now left.
  - intros m J' HJ'. assert (I : In m (names Fr)) by (apply (re_names _ _ _ _ _ G4 m); [now left|apply jail_of_names; eauto]).
    pose proof I as I2. apply jail_of_names in I2 as (Jf & HF).
    assert (SC : same_config J' Jf /\ forall k v, dget k (j_opts Jf) = Some v -> dget k (j_opts J') = Some v).
    { destruct (jail_of S m) as [J|] eqn:HJ.
      - destruct (in_dec string_dec "--restart" opts) as [R|R]; [|destruct (string_dec (j_backend J) (j_backend Jf)) as [B|B]].
        + destruct (re_new _ _ _ _ _ G4 m Jf HF) as (J2 & A1 & _ & A3 & A4 & _); [auto|]. rewrite HJ' in A1. injection A1 as <-. split; [exact A3|]. now rewrite A4.
        + destruct (re_kept _ _ _ _ _ G4 m J Jf) as (J2 & A1 & _ & _ & A3 & A4); auto. rewrite HJ' in A1. injection A1 as <-. split; [exact A3|]. intros k v K. now rewrite (A4 k), K.
        + destruct (re_new _ _ _ _ _ G4 m Jf HF) as (J2 & A1 & _ & A3 & A4 & _); [intros J0 E0; rewrite HJ in E0; injection E0 as <-; auto|].
          rewrite HJ' in A1. injection A1 as <-. split; [exact A3|]. now rewrite A4.
      - destruct (re_new _ _ _ _ _ G4 m Jf HF) as (J2 & A1 & _ & A3 & A4 & _); [intros J0 E0; congruence|]. rewrite HJ' in A1. injection A1 as <-. split; [exact A3|]. now rewrite A4. }
    destruct SC as [SC SV].
    destruct (re_kept _ _ _ _ _ K4 m J' Jf) as (J2 & A1 & A2 & A3 & A4 & A5); auto; [apply (sc_backend _ _ SC)|].
    exists J2. split; [exact A1|]. split; [now apply (re_running _ _ _ _ _ K4 m J2)|]. split; [exact A2|]. split; [exact A3|]. split.
    + destruct SC, A4. constructor; try congruence. intros p. rewrite sc_logs0. symmetry. apply sc_logs.
    + intros k. rewrite (A5 k). destruct (dget k (j_opts Jf)) as [v|] eqn:V; [|reflexivity]. symmetry. now apply SV.
Qed.

(** DEMO: a server with one jail and a ban; in the new configuration another setting, and another jail. *)
Definition E5 (l : list (text * text)) : Stream_Model.env :=
  Stream_Props.demo_env [(tx "one", (tx "enabled", tx "yes") :: (tx "filter", tx "f") :: (tx "logpath", tx "/var/log/auth.log") :: l);
                         (tx "two", (tx "filter", tx "f") :: (tx "logpath", tx "/var/log/web.log") :: match l with [] => [] | _ => [(tx "enabled", tx "yes")] end)]
                        [(tx "f", demo_filter "r1")] [].
Definition C5 (l : list (text * text)) : config := demo_config (E5 l) [tx "one"; tx "two"].
Definition X5 (l : list (text * text)) : setting := mkSetting (C5 l) good_env false false true true.
Definition stream5 (l : list (text * text)) : list arg := match read_config (C5 l) None with Some gs => map encode_cmd gs | None => [] end.
Definition ops5 : list op := [Cmd good_env (server_stream (stream5 [(tx "maxretry", tx "5"); (tx "bantime", tx "1h")])); Bans "one" "192.0.2.1"; Bans "two" "192.0.2.2"].
Definition S5 : srv := after true ops5.
Lemma runs_ok S : forallb (fun nj => match j_filter (snd nj), j_actions (snd nj) with TRun, TRun => true | _, _ => false end) (s_jails S) = true -> forall m J, jail_of S m = Some J -> running J.
Proof.
  intros K m J HJ. apply dget_In in HJ. apply (proj1 (forallb_forall _ _) K) in HJ. cbn [snd] in HJ. split; destruct (j_filter J), (j_actions J); try reflexivity; discriminate.
Qed.
Definition gs5 : list gcmd := Eval vm_compute in match read_config (C5 [(tx "maxretry", tx "10")]) (the_section (Some "one")) with Some gs => gs | None => [] end.
Definition F5 : srv := Eval vm_compute in fst (fresh good_env true (map encode_cmd gs5)).
Example C92_demo_hyps : well_named (C5 [(tx "maxretry", tx "10")]) /\ Stream_Spec.gives_dicts (cf_env (C5 [(tx "maxretry", tx "10")])) /\ Forall (op_env ends_ok) ops5 /\ calm good_env
  /\ (forall m J, jail_of S5 m = Some J -> running J)
  /\ reload_words ["--unban"; "one"] ["--unban"] (Some "one") /\ reload_words ["--unban"; "--restart"] ["--unban"; "--restart"] None
  /\ exists gs Fr, read_config (C5 [(tx "maxretry", tx "10")]) (the_section (Some "one")) = Some gs /\ fresh good_env true (map encode_cmd gs) = (Fr, None).
Proof.
  split; [apply demo_well; vm_compute; reflexivity|]. split; [apply Stream_Props.demo_dicts|]. split; [repeat constructor|]. split; [split; [|split; [|split]]; intros n; try split; reflexivity|].
  split.
  { apply runs_ok. vm_compute. reflexivity. }
  split; [split; [apply Forall_cons; [cbn; auto|apply Forall_nil]|split; [reflexivity|split; [discriminate|]]]; intros H; repeat (destruct H as [H|H]; [discriminate H|]); exact H|].
  split; [split; [apply Forall_cons; [cbn; auto|apply Forall_cons; [cbn; auto|apply Forall_nil]]|now left]|]. exists gs5, F5. split; vm_compute; reflexivity.
Qed.
Definition server_of (o : world) : srv := match w_server o with Some s => s | None => srv_init false end.
Definition jail5 (S : srv) (n : string) : jail := match jail_of S n with Some J => J | None => new_jail 0 "" end.
Definition T1 : srv := Eval vm_compute in server_of (fst (command (X5 [(tx "maxretry", tx "10")]) ["reload"] (mkWorld (Some S5) false))).
Definition T2 : srv := Eval vm_compute in server_of (fst (command (X5 []) ["reload"; "--unban"] (mkWorld (Some S5) false))).
Definition T3 : srv := Eval vm_compute in server_of (fst (command (X5 []) ["reload"] (mkWorld (Some S5) false))).
Definition T4 : srv := Eval vm_compute in server_of (fst (command (X5 []) ["start"] nothing)).
Example C92_demo : exists S1 S2 J1 J2 K1, names S5 = ["one"; "two"]
  /\ command (X5 [(tx "maxretry", tx "10")]) ["reload"] (mkWorld (Some S5) false) = (mkWorld (Some S1) false, true)
  /\ jail_of S1 "one" = Some J1 /\ j_bans J1 = ["192.0.2.1"] /\ dget "maxretry" (j_opts J1) = Some "10" /\ jail_of S1 "two" = Some K1 /\ j_bans K1 = ["192.0.2.2"]
  /\ command (X5 []) ["reload"; "--unban"] (mkWorld (Some S5) false) = (mkWorld (Some S2) false, true)
  /\ names S2 = ["one"] /\ jail_of S2 "one" = Some J2 /\ j_bans J2 = [].
Proof. exists T1, T2, (jail5 T1 "one"), (jail5 T2 "one"), (jail5 T1 "two"). repeat split; vm_compute; reflexivity. Qed.

(** FINDING: what the configuration does not say any more is not taken back by a reload: the jail keeps the
    old value, while the same configuration gives a new server no such setting. *)
Theorem C92_removed_refuted : exists X S S' J' c F s, read_config (x_config X) None <> None /\ enabled (x_config X) (tx "one") c F s /\ says (Stream_Model.j_opts c) F (tx "maxretry") = None
  /\ command X ["reload"] (mkWorld (Some S) false) = (mkWorld (Some S') false, true) /\ jail_of S' "one" = Some J' /\ dget "maxretry" (j_opts J') = Some "5"
  /\ exists F1 J1, command X ["start"] nothing = (mkWorld (Some F1) false, true) /\ jail_of F1 "one" = Some J1 /\ dget "maxretry" (j_opts J1) = None.
Proof.
  destruct (Stream_Props.demo_read (E5 []) (tx "one")) as [[[c F] s]|] eqn:D; [|vm_compute in D; discriminate].
  exists (X5 []), S5, T3, (jail5 T3 "one"), c, F, s. split; [vm_compute; discriminate|].
  split; [apply Stream_Props.demo_configured; [exact D| |]; vm_compute in D; injection D as <- <- <-; vm_compute; reflexivity|].
  split; [vm_compute in D; injection D as <- <- <-; vm_compute; reflexivity|]. split; [vm_compute; reflexivity|]. split; [vm_compute; reflexivity|]. split; [vm_compute; reflexivity|].
  exists T4, (jail5 T4 "one"). repeat split; vm_compute; reflexivity.
Qed.

(** ** C93: what the client does *)
(** start is refused, and changes nothing, if a server runs, the configuration is not valid, a socket is
    left over (without force), or no server comes up.  In all other cases a new server is told the
    configuration, and start succeeds exactly if it takes it. *)
Theorem C93_start X o : let C := x_config X in
  match w_server o, read_config C None with
  | None, Some gs =>
      if (x_force X || negb (w_socket o)) && x_comes_up X then
        let '(S0, (code, r)) := proceed (x_env X) (server_stream (map encode_cmd gs)) (srv_init (x_db X)) in
        command X ["start"] o = (mkWorld (if (code =? 0) || x_background X then Some S0 else None) false, code =? 0)
      else command X ["start"] o = (o, false)
  | _, _ => command X ["start"] o = (o, false)
  end.
Proof.
  intros C. change (command X ["start"] o) with (start_server X o). unfold start_server, prepare_start. fold C. destruct (w_server o); [reflexivity|].
  destruct (read_config C None) as [gs|]; [|reflexivity]. rewrite <- (negb_involutive (x_force X)), <- negb_andb, negb_involutive.
  destruct (negb (x_force X) && w_socket o); cbn [negb andb]; [reflexivity|]. destruct (x_comes_up X); [|reflexivity].
  fold (server_stream (map encode_cmd gs)). destruct (proceed (x_env X) (server_stream (map encode_cmd gs)) (srv_init (x_db X))) as [S0 [code r]] eqn:P. cbn [process_cmd]. rewrite P.
  change (is_quit (server_stream (map encode_cmd gs))) with false. cbn [andb]. unfold proceed.
  change (handler (x_env X) (A [T "server-status"]) S0) with (S0, Good (VTxt "Server ready")). cbn. now rewrite andb_true_r.
Qed.

(** reload is refused, and changes nothing, if there are words too many, no server, or no valid
    configuration.  Otherwise one command is sent, with the configuration of the jail or of all, and reload
    succeeds exactly if the server does not answer with an error. *)
Theorem C93_reload X l o :
  (forall opts t gs S0, reload_words l opts t -> w_server o = Some S0 -> read_config (x_config X) (the_section t) = Some gs ->
     let '(S1, (code, r)) := proceed (x_env X) (reload (match t with Some n => n | None => "--all" end) opts (map encode_cmd gs)) S0 in
     command X ("reload" :: l) o = (mkWorld (Some S1) (w_socket o), code =? 0))
  /\ (w_server o = None \/ (forall opts t, reload_words l opts t -> read_config (x_config X) (the_section t) = None) -> command X ("reload" :: l) o = (o, false)).
Proof.
  split.
  - intros opts t gs S0 RW HS RC. rewrite (reload_sent X l opts t gs o S0 RW HS RC). destruct (proceed _ _ S0) as [S1 [code r]]. reflexivity.
  - intros H. assert (E : command X ("reload" :: l) o = reload_server X l o) by (destruct l; reflexivity). rewrite E. unfold reload_server.
    destruct (reload_args l) as [[opts ns]|] eqn:RA; [|reflexivity]. destruct (w_server o) as [S0|]; [|reflexivity]. destruct H as [H|H]; [discriminate|].
    specialize (H opts (match ns with n :: _ => if eqb n all_jails then None else Some n | [] => None end)).
    assert (RW : reload_words l opts (match ns with n :: _ => if eqb n all_jails then None else Some n | [] => None end)) by (apply words_args; eauto).
    specialize (H RW). unfold the_section in H. rewrite H. reflexivity.
Qed.

(** restart of a jail is a reload that restarts it. *)
Theorem C93_restart_jail X n r o : command X ("restart" :: n :: r) o = command X ("reload" :: "--restart" :: n :: r) o.
Proof. reflexivity. Qed.

(** restart without a jail: if the server ends, a new one is started, with nothing of the old one; if it does
    not, restart fails.  Without a server, it is a start. *)
Theorem C93_restart X o :
  match w_server o with
  | None => command X ["restart"] o = command X ["start"] o
  | Some S0 => let '(S1, (code, r)) := proceed (x_env X) (A [T "stop"]) S0 in
              command X ["restart"] o = if code =? 0 then command X ["start"] (mkWorld None (w_socket o)) else (mkWorld (Some S1) (w_socket o), false)
  end.
Proof.
  change (command X ["restart"] o) with (let o1 := fst (send X [A [T "stop"]] o) in match w_server o1 with Some _ => (o1, false) | None => start_server X o1 end).
  change (command X ["start"] o) with (start_server X o). change (command X ["start"] (mkWorld None (w_socket o))) with (start_server X (mkWorld None (w_socket o))).
  destruct o as [[S0|] sk]; cbn [w_server w_socket]; [|reflexivity].
  unfold send. cbn [w_server process_cmd]. destruct (proceed (x_env X) (A [T "stop"]) S0) as [S1 [code r]]. change (is_quit (A [T "stop"])) with true. cbn [andb].
  destruct (code =? 0); reflexivity.
Qed.

(** Every other command is sent to the server as it is; without a server it fails. *)
Theorem C93_other X l o : ~ In (hd "" l) ["start"; "restart"; "reload"] \/ (hd "" l = "start" /\ (1 < List.length l)%nat) -> l <> [] ->
  match w_server o with
  | None => command X l o = (o, false)
  | Some S0 => let '(S1, (code, r)) := proceed (x_env X) (A (map T l)) S0 in
              command X l o = (mkWorld (if eqb l ["stop"] && (code =? 0) then None else Some S1) (w_socket o), code =? 0)
  end.
Proof.
  intros H NE. assert (E : command X l o = send X [A (map T l)] o).
  { destruct l as [|n [|y r]]; [contradiction| |]; cbn [command hd map] in *.
    - assert (N : ~ In n ["start"; "restart"; "reload"]) by (destruct H as [H|[_ H]]; [exact H|cbn in H; lia]).
      destruct (eqb_spec n "start") as [Q|_]; [elim N; cbn; auto|]. destruct (eqb_spec n "restart") as [Q|_]; [elim N; cbn; auto|]. destruct (eqb_spec n "reload") as [Q|_]; [elim N; cbn; auto|]. reflexivity.
    - destruct (eqb_spec n "restart") as [Q|_]; [exfalso; destruct H as [H|[H _]]; [apply H; cbn; auto|subst; discriminate]|].
      destruct (eqb_spec n "reload") as [Q|_]; [exfalso; destruct H as [H|[H _]]; [apply H; cbn; auto|subst; discriminate]|]. reflexivity. }
  rewrite E. destruct o as [[S0|] sk]; cbn [w_server w_socket]; unfold send; cbn [w_server process_cmd]; [|reflexivity].
  destruct (proceed (x_env X) (A (map T l)) S0) as [S1 [code r]]. cbn [andb].
  assert (Q : is_quit (A (map T l)) = eqb l ["stop"]).
  { destruct l as [|n [|y r']]; [contradiction| |]; cbn [map is_quit].
    - destruct (eqb_spec n "stop") as [->|N]; [reflexivity|]. symmetry. apply eqb_neq. congruence.
    - symmetry. apply eqb_neq. congruence. }
  rewrite Q. destruct (eqb l ["stop"] && (code =? 0)); reflexivity.
Qed.

(** DEMO: the cases. *)
Example C93_demo : let run := mkWorld (Some S5) false in
  command X1 ["start"] run = (run, false)
  /\ command X1 ["start"] (mkWorld None true) = (mkWorld None true, false)
  /\ snd (command (mkSetting C1 good_env true false true true) ["start"] (mkWorld None true)) = true
  /\ command (mkSetting (demo_config Stream_Props.E1 [tx "lost"]) good_env true false true true) ["start"] nothing = (nothing, false)
  /\ command X1 ["reload"; "one"; "two"] run = (run, false) /\ command X1 ["reload"] nothing = (nothing, false)
  /\ command (mkSetting (demo_config Stream_Props.E1 [tx "lost"]) good_env true false true true) ["reload"] run = (run, false)
  /\ (exists S0, command X1 ["restart"] run = (mkWorld (Some S0) false, true) /\ names S0 = ["sshd"])
  /\ command X1 ["stop"] run = (nothing, true)
  /\ snd (command X1 ["start"; "none"] run) = false /\ snd (command X1 ["ping"] run) = true
  /\ ~ reload_words ["one"; "two"] [] (Some "one").
Proof.
  cbv zeta. do 7 (split; [vm_compute; reflexivity|]). split; [eexists; split; vm_compute; reflexivity|]. do 3 (split; [vm_compute; reflexivity|]). intros [_ [H _]]. discriminate.
Qed.

Print Assumptions C91_settings.
Print Assumptions C91_start.
Print Assumptions C91_accepted.
Print Assumptions C91_all_or_nothing.
Print Assumptions C91_one_wrong_refuted.
Print Assumptions C91_name_refuted.
Print Assumptions C92_reload.
Print Assumptions C92_accepted.
Print Assumptions C92_again.
Print Assumptions C92_removed_refuted.
Print Assumptions C93_start.
Print Assumptions C93_reload.
Print Assumptions C93_restart_jail.
Print Assumptions C93_restart.
Print Assumptions C93_other.
