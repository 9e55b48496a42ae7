(** The commands a configuration gives: C71 - C75. *)
From Verif Require Import Base Text Backtrack Options_Model Options_Spec Options_Proofs Options_Proofs2 Options_Props Stream_Model Stream_Spec Stream_Proofs Stream_Proofs2 Stream_Proofs3 Stream_Proofs4 Stream_Proofs5 Stream_Proofs6 Stream_Proofs7 Stream_Proofs8.
Require Import ZifyBool ZifyNat.
Local Open Scope string_scope.
Local Open Scope list_scope.

(** ** A configuration for the demos *)
Definition demo_section (l : list (text * list (text * text))) (sec k : text) : gres :=
  match dget sec l with
  | None => GNoSection
  | Some o => match dget k o with Some v => GVal v | None => GNoOption end
  end.
Definition demo_file (definition init : list (text * text)) : dfile :=
  mkFile (fun _ k => match dget k definition with Some v => GVal v | None => GNoOption end)
         (Some (dkeys definition)) false (Some (map (fun kv => (fst kv, GVal (snd kv))) init)).
Definition demo_int (t : text) : option Z := if eqb t (tx "5") then Some 5%Z else if eqb t (tx "10") then Some 10%Z else if eqb t (tx "20") then Some 20%Z else None.
Definition demo_env (jails : list (text * list (text * text))) (filters actions : list (text * dfile)) : env :=
  mkEnv demo_int (fun _ o => Some o) (fun t => Some (split " "%char t)) (fun p => [p]) (fun p => negb (eqb p (tx "/missing"))) (fun _ => tx "{}") (tx "/etc/fail2ban")
    (demo_section jails) (fun _ => demo_section jails) (fun n => dget n filters) (fun n => dget n actions).
Lemma demo_dicts jails filters actions : gives_dicts (demo_env jails filters actions).
Proof. intros ign o o' W [= <-]. exact W. Qed.
Lemma demo_leaves jails filters actions k : leaves (demo_env jails filters actions) k.
Proof. intros ign o o' [= <-]. reflexivity. Qed.
Definition E1 : env := demo_env
  [(tx "sshd", [(tx "enabled", tx "yes"); (tx "filter", tx "sshd[mode=x]"); (tx "maxretry", tx "5"); (tx "bantime", tx "10m"); (tx "maxlines", tx "5");
                (tx "ignoreip", tx "127.0.0.1 ::1"); (tx "logpath", tx "/var/log/auth.log tail" ++ nl :: tx "/missing"); (tx "action", tx "ban[port=22] mail.py[dest=root]"); (tx "ignoreregex", tx "own")]);
   (tx "off", [(tx "filter", tx "sshd")]);
   (tx "bad", [(tx "enabled", tx "1"); (tx "filter", tx "none")]);
   (tx "lost", [(tx "enabled", tx "true"); (tx "filter", tx "sshd"); (tx "logpath", tx "/missing")]);
   (tx "skip", [(tx "enabled", tx "true"); (tx "filter", tx "sshd"); (tx "logpath", tx "/missing"); (tx "skip_if_nologs", tx "on")])]
  [(tx "sshd", demo_file [(tx "failregex", tx "r1" ++ nl :: nl :: tx "r2"); (tx "usedns", tx "warn"); (tx "datepattern", tx "Epoch")] [(tx "maxlines", tx "10"); (tx "journalmatch", tx "A=1 + B=2")])]
  [(tx "ban", demo_file [(tx "actionban", tx "block <ip>"); (tx "norestored", tx "1")] [(tx "port", tx "any"); (tx "chain", tx "INPUT")])].
Definition demo_read (E : env) (n : text) : option (jail * opts * list cmd) :=
  match jail_get_options E false n with
  | JOk j => match jail_convert E false j with
             | COk s false => match (match j_filter j with None => Some [] | Some f => get_combined E filter_opts [] (f_opts f) (f_init f) end) with Some F => Some (j, F, s) | None => None end
             | _ => None
             end
  | _ => None
  end.
Fixpoint nodupb (l : list text) : bool := match l with [] => true | x :: l => negb (inb x l) && nodupb l end.
Lemma nodupb_ok l : nodupb l = true -> NoDup l.
Proof. induction l as [|x l IH]; [constructor|]. cbn. rewrite andb_true_iff, negb_true_iff. intros [N H]. constructor; [now apply inb_false|auto]. Qed.
Lemma demo_configured E n j F s : demo_read E n = Some (j, F, s) -> is_enabled false (j_opts j) = true -> nodupb (dkeys F) = true -> configured E false false n j F s.
Proof.
  unfold demo_read, configured, filter_values. intros H En W. destruct (jail_get_options E false n) as [j'| |]; try discriminate. destruct (jail_convert E false j') as [|s' []] eqn:C; try discriminate.
  destruct (match j_filter j' with None => _ | Some f => _ end) as [F'|] eqn:G; [|discriminate]. injection H as -> -> ->. split; [reflexivity|]. split; [exact En|]. split; [exact C|].
  split; [now apply nodupb_ok|]. destruct (j_filter j) as [f|]; [exact G|]. now injection G as <-.
Qed.
Definition demo_sshd : jail * opts * list cmd := Eval vm_compute in match demo_read E1 (tx "sshd") with Some x => x | None => (mkJail [] [] None [], [], []) end.
(** DEMO: what the jail sshd gives, in order. *)
Example C71_demo : gives_dicts E1 /\ configured E1 false false (tx "sshd") (fst (fst demo_sshd)) (snd (fst demo_sshd)) (snd demo_sshd)
  /\ snd demo_sshd =
     let set l := CSet (tx "sshd") (map VText l) in
     [CAdd (tx "sshd") (VText (tx "auto"));
      CSet (tx "sshd") [VText (tx "maxlines"); VInt 5]; set [tx "usedns"; tx "warn"]; CSet (tx "sshd") [VText (tx "maxlines"); VInt 10];
      CMulti (tx "sshd") (tx "addfailregex") [tx "r1"; tx "r2"]; set [tx "datepattern"; tx "Epoch"]; set [tx "addjournalmatch"; tx "A=1"; tx "+"; tx "B=2"];
      set [tx "addignoreregex"; tx "own"];
      CSet (tx "sshd") [VText (tx "maxretry"); VInt 5]; set [tx "bantime"; tx "10m"]; set [tx "addignoreip"; tx "127.0.0.1"; tx "::1"];
      set [tx "addlogpath"; tx "/var/log/auth.log"; tx "tail"];
      set [tx "addaction"; tx "ban"];
      CMultiAct (tx "sshd") (tx "ban") [(tx "actionban", VText (tx "block <ip>")); (tx "norestored", VBool true); (tx "port", VText (tx "22")); (tx "name", VText (tx "sshd"));
                                        (tx "actname", VText (tx "ban")); (tx "chain", VText (tx "INPUT"))];
      set [tx "addaction"; tx "mail"; tx "/etc/fail2ban/action.d/mail.py"; tx "{}"]].
Proof. split; [apply demo_dicts|]. split; [apply demo_configured; vm_compute; reflexivity|]. vm_compute. reflexivity. Qed.

Section C71.
Context (E : env) (force allow : bool) (name : text) (j : jail) (F : opts) (s : list cmd) (H : configured E force allow name j F s).
Let HC : jail_convert E allow j = COk s false := proj1 (proj2 (proj2 H)).
Let HF : filter_values E j F := proj2 (proj2 (proj2 H)).
Let HN : j_name j = name := proj1 (jail_read E force name j (proj1 H) (proj1 (proj2 H))).
Let HP : proper j := proj1 (proj2 (jail_read E force name j (proj1 H) (proj1 (proj2 H)))).

(** ** C71: the commands for a jail say what its configuration says *)
(** The jail is added first, with its backend.  All commands are about the jail, none starts it, and only
    known words are used - except for options of the filter the name of which is a part of "datepattern". *)
Theorem C71_added : exists b s', backend_is b (j_opts j) /\ s = CAdd name b :: s'
  /\ Forall (fun c => about c = Some name /\ exists k, key_of c = Some k /\ (In k commands \/ In k (dkeys F) /\ exists a b, tx "datepattern" = a ++ k ++ b)) s'.
Proof.
  pose proof (convert_about E allow j s HC) as Ab. pose proof (words_used E allow j F s HC HF HP) as Wd.
  destruct Wd as (s' & Hs & Wd). rewrite HN in Hs, Ab. exists (backend_of (j_opts j)), s'. split; [reflexivity|]. split; [exact Hs|]. apply Forall_forall. intros c I.
  assert (Ic : In c s) by (rewrite Hs; now right). rewrite Forall_forall in Ab. split; [now apply Ab|]. destruct (Wd c I) as (k & Hk & [Kc|[Kf Ks]]); exists k; (split; [exact Hk|]); [now left|right].
  split; [exact Kf|]. now apply substring_spec.
Qed.
(** Every setting of the jail is set as it is in the jail's section; the settings of the filter are those of
    its file, otherwise the jail's; the date pattern is the jail's, otherwise the file's.  Nothing else is
    set. *)
Theorem C71_settings k : In k plain_options -> told k s = dget k (j_opts j).
Proof.
  intros I. assert (A : no_add k /\ k <> tx "action" /\ eqb k (tx "logpath") || eqb k (tx "ignoreip") || inb k ignore_opts = false /\ substring k (tx "datepattern") = false /\ first_key k = false)
    by (unfold plain_options in I; repeat (destruct I as [<-|I]; [split; [reflexivity|]; split; [discriminate|]; split; [reflexivity|]; split; reflexivity|]); contradiction).
  destruct A as (A1 & A2 & A3 & A4 & A5). rewrite (told_all E allow j F s HC HF HP k A1 A2), A3, A4, A5. destruct (dget k (j_opts j)); reflexivity.
Qed.
Theorem C71_first k : In k first_options -> told k s = orelse (set_value (dget k F)) (set_value (dget k (j_opts j))).
Proof.
  intros I. assert (A : no_add k /\ k <> tx "action" /\ eqb k (tx "logpath") || eqb k (tx "ignoreip") || inb k ignore_opts = true /\ substring k (tx "datepattern") = false /\ first_key k = true)
    by (unfold first_options in I; repeat (destruct I as [<-|I]; [split; [reflexivity|]; split; [discriminate|]; split; [reflexivity|]; split; reflexivity|]); contradiction).
  destruct A as (A1 & A2 & A3 & A4 & A5). rewrite (told_all E allow j F s HC HF HP k A1 A2), A3, A4, A5. reflexivity.
Qed.
Theorem C71_datepattern : told (tx "datepattern") s = orelse (set_value (dget (tx "datepattern") (j_opts j))) (set_value (dget (tx "datepattern") F)).
Proof.
  rewrite (told_all E allow j F s HC HF HP (tx "datepattern") eq_refl ltac:(discriminate)).
  change (eqb (tx "datepattern") (tx "logpath") || eqb (tx "datepattern") (tx "ignoreip") || inb (tx "datepattern") ignore_opts) with true.
  change (substring (tx "datepattern") (tx "datepattern")) with true. change (first_key (tx "datepattern")) with false.
  destruct (set_value (dget (tx "datepattern") (j_opts j))), (set_value (dget (tx "datepattern") F)); reflexivity.
Qed.
(** The regular expressions are the lines of the file's value, then those of the jail's; so are the
    matches for the journal, split into words.  The addresses to ignore are the words of ignoreip. *)
Theorem C71_regexes k : In k [tx "failregex"; tx "ignoreregex"] -> told_added (tx "add" ++ k) s = lines_of (dget k F) ++ lines_of (dget k (j_opts j)).
Proof. intros I. apply (regexes E allow j F s HC HF HP). destruct I as [<-|[<-|[]]]; auto. Qed.
Theorem C71_journal : Forall2 (fun m ws => exists xs, e_shlex E m = Some xs /\ ws = map VText xs)
  (lines_of (dget (tx "journalmatch") F) ++ lines_of (dget (tx "journalmatch") (j_opts j))) (told_words (tx "addjournalmatch") s).
Proof. exact (journals E allow j F s HC HF HP). Qed.
Theorem C71_ignoreip : told_words (tx "addignoreip") s = match dget (tx "ignoreip") (j_opts j) with Some v => [map VText (splitwords (text_of v) false)] | None => [] end.
Proof. exact (ips E allow j F s HC HF HP). Qed.
(** The log files are the existing files every line of logpath stands for, read from where the line says. *)
Theorem C71_logs : match dget (tx "logpath") (j_opts j) with
  | Some v => if uses_journal (j_opts j) then told_logs s = [] else log_files E (split nl (text_of v)) (told_logs s)
  | None => told_logs s = []
  end.
Proof. exact (log_paths E allow j F s HC HF HP). Qed.
(** The actions are added in their order.  The options of an action are those of its file and parameters. *)
Theorem C71_actions : told_actions s = map action_args (j_actions j)
  /\ forall n k v, In (k, v) (told_action_options n s) <->
     exists a A, In (ACommand a) (j_actions j) /\ a_name a = n /\ get_combined E action_opts action_ignore (a_opts a) (a_init a) = Some A
     /\ (In k (names action_opts) /\ In (k, v) A \/ ~ In k (names action_opts) /\ In (k, v) (a_init a) /\ starts_with (tx "known/") k = false).
Proof. split; [exact (actions_told E allow j F s HC HF HP)|]. exact (actions_options E allow j F s HC HF HP). Qed.
(** When a log file is added, everything is already set but the actions; when a regular expression is
    added, the options it depends on are already set. *)
Theorem C71_order a c b : s = a ++ c :: b ->
  (key_of c = Some (tx "addlogpath") -> (forall k, ~ In k [tx "addlogpath"; tx "addaction"; tx "action"] -> told k a = told k s /\ told_added k a = told_added k s /\ told_words k a = told_words k s) /\ told_actions a = [] /\ forall n, told_action_options n a = [])
  /\ (key_of c = Some (tx "addfailregex") \/ key_of c = Some (tx "addignoreregex") -> forall k, In k first_options -> told k a = told k s).
Proof.
  intros Es. split; [|intros K k Ik; exact (regex_position E allow j F s HC HF HP a c b k Es K Ik)].
  intros K. assert (X : exists p t, c = CSet (j_name j) [VText (tx "addlogpath"); p; t]).
  { destruct (structure2 E allow j F s HC HF) as (rF & rJ & acts & RF & RJ & AC & Hs). rewrite Hs in Es.
    assert (I : In c (plogs E (j_name j) (j_opts j) (j_opts j))).
    { assert (Ic : In c (head_part j F rF rJ ++ plogs E (j_name j) (j_opts j) (j_opts j) ++ acts)) by (rewrite Es; apply in_app_iff; right; now left).
      rewrite !in_app_iff in Ic. destruct Ic as [Ic|[Ic|Ic]]; [exfalso|exact Ic|exfalso].
      - pose proof (head_without E j F HP (tx "addlogpath") rF rJ RF RJ ltac:(now left)) as W. unfold without in W. rewrite Forall_forall in W. now apply (W c Ic).
      - pose proof (acts_without E j (tx "addlogpath") _ _ AC ltac:(discriminate) ltac:(discriminate)) as W. unfold without in W. rewrite Forall_forall in W. now apply (W c Ic). }
    apply in_flat_map in I as ([k v] & _ & I). destruct (eqb k _); [|contradiction]. destruct (systemd _); [contradiction|]. apply in_flat_map in I as (l & _ & I).
    unfold path_cmds in I. destruct (match rsplit l with Some x => x | None => _ end) as [p t]. apply in_map_iff in I as (x & <- & _). eauto. }
  destruct X as (p & t & ->). split.
  - intros k N. apply (log_position E allow j F s HC HF HP a p t b Es); intros ->; apply N; [now left|right; now left|right; right; now left].
  - exact (no_actions_before E allow j F s HC HF HP a p t b Es).
Qed.
End C71.
(** The commands of every jail can be described this way. *)
Theorem C71_exists E force allow name j s : gives_dicts E -> jail_get_options E force name = JOk j -> is_enabled force (j_opts j) = true ->
  jail_convert E allow j = COk s false -> exists F, configured E force allow name j F s.
Proof. intros G R En C. destruct (filter_values_ex E allow j s G) as [F HF]; [intros fl Hf; now apply (jail_read E force name j R En)|exact C|]. exists F. repeat (split; [assumption|]). exact HF. Qed.

(** Finding: filterreader.py:96 asks `opt in ('datepattern')`, a search in a text, not in a tuple.  A
    parameter of a filter the name of which is a part of "datepattern" - here "date" - is sent to the
    server as a setting of the jail, which the server refuses. *)
Definition E2 : env := demo_env [(tx "x", [(tx "enabled", tx "yes"); (tx "filter", tx "f[date=short]")])] [(tx "f", demo_file [(tx "failregex", tx "r <date>")] [])] [].
Theorem C71_words_refuted : exists E j F s, configured E false false (tx "x") j F s /\ exists c k, In c s /\ key_of c = Some k /\ ~ In k commands.
Proof.
  destruct (demo_read E2 (tx "x")) as [[[j F] s]|] eqn:D; [|vm_compute in D; discriminate].
  exists E2, j, F, s. split; [apply demo_configured; [exact D| |]; vm_compute in D; injection D as <- <- <-; vm_compute; reflexivity|].
  exists (CSet (tx "x") [VText (tx "date"); VText (tx "short")]), (tx "date"). split; [vm_compute in D; injection D as <- <- <-; vm_compute; tauto|]. split; [reflexivity|].
  apply inb_false. reflexivity.
Qed.

(** ** C72: which value of a filter's option counts *)
(** An option of the filter is, in this order, the parameter filter[option=...], the file's value in [Init],
    the jail's own value, the file's value in [Definition]; for the date pattern the jail's own value comes
    first.  Regular expressions and journal matches of the jail come in addition to the parameter and
    [Init], and instead of those in [Definition]. *)
Theorem C72_precedence E force allow name j F s fl : configured E force allow name j F s -> j_filter j = Some fl -> (forall k, In k (names filter_opts) -> leaves E k) ->
  exists params f given, filter_of E name params f
  /\ (forall k, ordinary k -> dget k given = orelse (param params k) (orelse (own_init f k) (dget k (j_opts j))))
  /\ let v := file_value E (j_opts j) params f given in
     told (tx "usedns") s = orelse (set_value (v (tx "usedns"))) (set_value (dget (tx "usedns") (j_opts j)))
     /\ told (tx "prefregex") s = orelse (set_value (v (tx "prefregex"))) (set_value (dget (tx "prefregex") (j_opts j)))
     /\ told (tx "maxlines") s = orelse (as_int E (v (tx "maxlines"))) (set_value (dget (tx "maxlines") (j_opts j)))
     /\ told (tx "datepattern") s = orelse (set_value (dget (tx "datepattern") (j_opts j))) (set_value (v (tx "datepattern")))
     /\ told_added (tx "addfailregex") s = lines_of (v (tx "failregex")) ++ lines_of (dget (tx "failregex") (j_opts j))
     /\ told_added (tx "addignoreregex") s = lines_of (v (tx "ignoreregex")) ++ lines_of (dget (tx "ignoreregex") (j_opts j))
     /\ Forall2 (fun m ws => exists xs, e_shlex E m = Some xs /\ ws = map VText xs)
          (lines_of (v (tx "journalmatch")) ++ lines_of (dget (tx "journalmatch") (j_opts j))) (told_words (tx "addjournalmatch") s).
Proof.
  intros H Hf L. pose proof H as (R & En & C & W & G). rewrite Hf in G. destruct (jail_read E force name j R En) as (_ & _ & _ & _ & Fl).
  destruct (Fl fl Hf) as (_ & _ & params & f & given & FO & GV & Val). exists params, f, given. split; [exact FO|]. split; [exact GV|]. cbv zeta.
  assert (In' : forall k, inb k (names filter_opts) = true -> In k (names filter_opts)) by (intros k; apply inb_In).
  assert (Eq : forall k, inb k (names filter_opts) = true -> k <> tx "maxlines" -> dget k F = file_value E (j_opts j) params f given k).
  { intros k I N. rewrite <- (Val k (In' k I)). apply (combined_get E _ _ _ _ G); auto. }
  split; [rewrite (C71_first _ _ _ _ _ _ _ H) by (now left); rewrite Eq by (reflexivity || discriminate); reflexivity|].
  split; [rewrite (C71_first _ _ _ _ _ _ _ H) by (right; right; now left); rewrite Eq by (reflexivity || discriminate); reflexivity|].
  split; [|split; [rewrite (C71_datepattern _ _ _ _ _ _ _ H), Eq by (reflexivity || discriminate); reflexivity|]].
  - rewrite (C71_first _ _ _ _ _ _ _ H) by (right; now left). f_equal. rewrite <- (Val (tx "maxlines") (In' (tx "maxlines") eq_refl)). apply combined_int; [exact G|apply L, In'; reflexivity|].
    intros v Hv. rewrite (Val (tx "maxlines") (In' (tx "maxlines") eq_refl)) in Hv. unfold file_value, param, own_init, option_value in Hv.
    destruct (dget (tx "maxlines") params); [injection Hv as <-; eauto|]. cbn [orelse] in Hv.
    destruct (d_init f) as [l|]; [destruct (dget (tx "maxlines") l) as [[v'| | | |]|]; cbn [orelse] in Hv|cbn [orelse] in Hv]; try (injection Hv as <-; eauto);
      (destruct (dmem _ _); [discriminate|]; destruct (d_get f given (tx "maxlines")); try discriminate; injection Hv as <-; eauto).
  - split; [pose proof (C71_regexes _ _ _ _ _ _ _ H (tx "failregex") ltac:(now left)) as Q; rewrite Eq in Q by (reflexivity || discriminate); exact Q|].
    split; [pose proof (C71_regexes _ _ _ _ _ _ _ H (tx "ignoreregex") ltac:(right; now left)) as Q; rewrite Eq in Q by (reflexivity || discriminate); exact Q|].
    pose proof (C71_journal _ _ _ _ _ _ _ H) as Q. rewrite Eq in Q by (reflexivity || discriminate). exact Q.
Qed.
(** DEMO: the jail sshd; its filter has options in both sections, one of them in the jail, too. *)
Example C72_demo : exists fl, j_filter (fst (fst demo_sshd)) = Some fl /\ (forall k, In k (names filter_opts) -> leaves E1 k)
  /\ told (tx "maxlines") (snd demo_sshd) = Some (VInt 10) /\ told (tx "usedns") (snd demo_sshd) = Some (VText (tx "warn"))
  /\ told_added (tx "addfailregex") (snd demo_sshd) = [tx "r1"; tx "r2"].
Proof.
  eexists. split; [reflexivity|]. split; [intros k _; apply demo_leaves|]. vm_compute. auto.
Qed.
(** Finding: an option set in the jail does not always count.  If the filter's file sets maxlines in its
    section [Init] - as filter.d/mongodb-auth.conf does - then maxlines in the jail has no effect, although
    a date pattern set there has. *)
Theorem C72_jail_first_refuted : exists E j F s, configured E false false (tx "sshd") j F s /\ dget (tx "maxlines") (j_opts j) = Some (VInt 5) /\ told (tx "maxlines") s = Some (VInt 10).
Proof. exists E1, (fst (fst demo_sshd)), (snd (fst demo_sshd)), (snd demo_sshd). split; [apply C71_demo|]. vm_compute. auto. Qed.

(** ** C73: many jails *)
(** A jail is enabled by its option, or all are by force. *)
Theorem C73_enabled o : is_enabled true o = true
  /\ (forall b, dget (tx "enabled") o = Some (VBool b) -> is_enabled false o = b)
  /\ (dget (tx "enabled") o = None -> is_enabled false o = false).
Proof.
  split; [reflexivity|]. unfold is_enabled, vget. split; [intros b ->; reflexivity|intros ->; reflexivity].
Qed.
(** Reading the jails fails only if reading one of them raises; otherwise the enabled jails and those with
    an error are there, in order, and reading succeeds if no jail has an error, or, if errors are to be
    ignored, if some jail has none. *)
Theorem C73_read E force ignoreWrong sections :
  match jails_get_options E force ignoreWrong sections with
  | None => exists sec, In sec sections /\ sec <> tx "INCLUDES" /\ jail_get_options E force sec = JRaise
  | Some (l, r) =>
      read_as E force sections l
      /\ (r = true <-> (forall sec j, In sec sections -> sec <> tx "INCLUDES" -> jail_get_options E force sec <> JBad j)
                       \/ ignoreWrong = true /\ exists sec j, In sec sections /\ sec <> tx "INCLUDES" /\ jail_get_options E force sec = JOk j /\ is_enabled force (j_opts j) = true)
  end.
Proof.
  unfold jails_get_options. rewrite read_eq. cbn [fst snd orb]. destruct (existsb (raising_section E force) sections) eqn:Ra.
  - apply existsb_exists in Ra as (sec & I & R). exists sec. unfold raising_section in R. apply andb_true_iff in R as [N R]. split; [exact I|].
    split; [intros ->; rewrite eqb_refl in N; discriminate|]. now destruct (jail_get_options E force sec).
  - split.
    + assert (NR : forall sec, In sec sections -> raising_section E force sec = false).
      { intros sec I. destruct (raising_section E force sec) eqn:R; [|reflexivity]. rewrite <- Ra. symmetry. apply existsb_exists. eauto. }
      clear Ra. induction sections as [|sec l IH]; [constructor|]. specialize (IH (fun x I => NR x (or_intror I))). specialize (NR sec (or_introl eq_refl)).
      cbn [flat_map]. unfold section_jails at 1. unfold raising_section in NR. destruct (eqb_spec sec (tx "INCLUDES")) as [->|N]; [now constructor|]. cbn [negb andb] in NR.
      destruct (jail_get_options E force sec) as [j|j|] eqn:J; [|now apply RA_wrong|discriminate]. destruct (is_enabled force (j_opts j)) eqn:En; [now apply RA_enabled|now apply (RA_disabled E force sec j)].
    + rewrite orb_true_iff, andb_true_iff, negb_true_iff. rewrite (existsb_exists (good_section E force)).
      assert (Wr : existsb (wrong_section E force) sections = false <-> forall sec j, In sec sections -> sec <> tx "INCLUDES" -> jail_get_options E force sec <> JBad j).
      { split.
        - intros X sec j I N J. enough (existsb (wrong_section E force) sections = true) by congruence. apply existsb_exists. exists sec. split; [exact I|]. unfold wrong_section. rewrite J.
          destruct (eqb_spec sec (tx "INCLUDES")); [contradiction|reflexivity].
        - intros A. destruct (existsb (wrong_section E force) sections) eqn:X; [|reflexivity]. apply existsb_exists in X as (sec & I & Hs). unfold wrong_section in Hs. apply andb_true_iff in Hs as [N Hs].
          destruct (jail_get_options E force sec) as [j|j|] eqn:J; try discriminate. exfalso. apply (A sec j I); [intros ->; rewrite eqb_refl in N; discriminate|exact J]. }
      rewrite Wr. assert (Go : (exists x, In x sections /\ good_section E force x = true) <-> exists sec j, In sec sections /\ sec <> tx "INCLUDES" /\ jail_get_options E force sec = JOk j /\ is_enabled force (j_opts j) = true).
      { split.
        - intros (sec & I & G). unfold good_section in G. apply andb_true_iff in G as [N G]. destruct (jail_get_options E force sec) as [j|j|] eqn:J; try discriminate. exists sec, j.
          split; [exact I|]. split; [intros ->; rewrite eqb_refl in N; discriminate|auto].
        - intros (sec & j & I & N & J & En). exists sec. split; [exact I|]. unfold good_section. rewrite J, En. destruct (eqb_spec sec (tx "INCLUDES")); [contradiction|reflexivity]. }
      rewrite Go. tauto.
Qed.
(** The commands of all jails: those of each jail, in order, then one start for every jail without an
    error.  With distinct names, the commands about a jail are its own and its start; a jail with an error
    gives one error and no other command.  There are no commands at all if one of the jails raises. *)
Theorem C73_stream E allow l :
  match jails_convert E allow l with
  | None => exists j, In j l /\ jail_convert E allow j = CRaise
  | Some s =>
      (forall j, In j l -> jail_convert E allow j <> CRaise)
      /\ (exists parts starts, s = concat parts ++ map CStart starts /\ Forall2 (fun j sj => exists e, jail_convert E allow j = COk sj e) l parts
           /\ Forall (fun c => is_start c = false) (concat parts)
           /\ starts = map j_name (filter (fun j => match jail_convert E allow j with COk _ false => true | _ => false end) l)
           /\ length (filter is_error s) = length (filter (fun j => match jail_convert E allow j with COk _ true => true | _ => false end) l))
      /\ (NoDup (map j_name l) -> forall j, In j l ->
            match jail_convert E allow j with
            | COk sj false => filter (about_jail (j_name j)) s = sj ++ [CStart (j_name j)]
            | COk sj true => (exists e, sj = [CError e] /\ In (CError e) s) /\ filter (about_jail (j_name j)) s = []
            | CRaise => False
            end)
  end.
Proof.
  rewrite jails_eq. destruct (forallb _ l) eqn:Fa.
  2: { apply not_true_iff_false in Fa. enough (Ex : existsb (fun j => match jail_convert E allow j with CRaise => true | _ => false end) l = true).
       - apply existsb_exists in Ex as (j & I & J). exists j. split; [exact I|]. now destruct (jail_convert E allow j).
       - clear - Fa. induction l as [|j l IH]; [now contradict Fa|]. cbn in *. destruct (jail_convert E allow j); [reflexivity|]. cbn in *. auto. }
  rewrite forallb_forall in Fa. assert (NR : forall j, In j l -> jail_convert E allow j <> CRaise) by (intros j I Q; specialize (Fa j I); now rewrite Q in Fa).
  split; [exact NR|].
  assert (Sj : forall j, In j l -> match jail_convert E allow j with
      | COk sj false => stream_of E allow j = sj /\ Forall (fun c => about c = Some (j_name j)) sj /\ Forall (fun c => is_start c = false) sj /\ filter is_error sj = []
      | COk sj true => exists e, stream_of E allow j = [CError e] /\ sj = [CError e] | CRaise => False end).
  { intros j I. unfold stream_of. destruct (jail_convert E allow j) as [|sj []] eqn:C; [now apply NR in I|apply convert_error in C as [e ->]; eauto|]. split; [reflexivity|]. pose proof (convert_about _ _ _ _ C) as Ab. split; [exact Ab|].
    pose proof C as C'. apply convert_parts in C' as (r1 & r2 & rJ & acts & Hs & M).
    assert (K : Forall (fun c => is_start c = false) sj).
    { apply Forall_forall. intros c Ic. destruct c as [a b|a b|a b d|a b d|n|e]; try reflexivity. exfalso. exact (no_start E allow j sj C n Ic). }
    split; [exact K|]. clear - Ab. induction Ab as [|c sj Hc _ IH]; [reflexivity|]. cbn. rewrite IH. destruct c; try reflexivity. discriminate. }
  split.
  - exists (map (stream_of E allow) l), (map j_name (filter (fine E allow) l)). rewrite <- flat_map_concat_map. split; [now rewrite map_map|]. split.
    { clear Fa Sj. induction l as [|j l IH]; [constructor|]. cbn [map]. constructor; [|apply IH; intros; apply NR; now right]. unfold stream_of. specialize (NR j (or_introl eq_refl)).
      destruct (jail_convert E allow j) as [|sj e]; [now contradict NR|now exists e]. }
    split.
    + apply Forall_forall. intros c I. apply in_flat_map in I as (j & Ij & I). specialize (Sj j Ij). destruct (jail_convert E allow j) as [|sj []]; [contradiction| |].
      * destruct Sj as (e & Hs & _). rewrite Hs in I. destruct I as [<-|[]]. reflexivity.
      * destruct Sj as (Hs & _ & K & _). rewrite Hs in I. rewrite Forall_forall in K. auto.
    + split.
      * apply (f_equal (map j_name)), filter_ext. intros j. unfold fine. destruct (jail_convert E allow j) as [|sj []]; reflexivity.
      * rewrite filter_app, app_length. replace (filter is_error (map (fun j => CStart (j_name j)) (filter (fine E allow) l))) with (@nil cmd).
        2: { generalize (filter (fine E allow) l). intros m. induction m as [|j m IH]; [reflexivity|exact IH]. }
        cbn [length]. rewrite Nat.add_0_r. clear Fa NR. induction l as [|j l IH]; [reflexivity|]. cbn [flat_map filter]. rewrite filter_app, app_length, IH by (intros; apply Sj; now right).
        specialize (Sj j (or_introl eq_refl)). destruct (jail_convert E allow j) as [|sj []]; [contradiction| |].
        -- destruct Sj as (e & -> & _). reflexivity.
        -- destruct Sj as (-> & _ & _ & ->). reflexivity.
  - intros ND j I. pose proof (Sj j I) as Sj1. rewrite filter_app.
    assert (Oth : forall j', In j' l -> j_name j' <> j_name j -> filter (about_jail (j_name j)) (stream_of E allow j') = []).
    { intros j' I' N. pose proof (Sj j' I') as S'. destruct (jail_convert E allow j') as [|sj []]; [contradiction| |].
      - destruct S' as (e & -> & _). reflexivity.
      - destruct S' as (-> & Ab & _). clear - Ab N. induction Ab as [|c sj Hc _ IH]; [reflexivity|]. cbn. rewrite IH. unfold about_jail. rewrite Hc. destruct (eqb_spec (j_name j') (j_name j)); [contradiction|reflexivity]. }
    assert (Body : forall m, NoDup (map j_name m) -> incl m l -> filter (about_jail (j_name j)) (flat_map (stream_of E allow) m) = if existsb (fun j' => eqb (j_name j') (j_name j)) m then filter (about_jail (j_name j)) (stream_of E allow j) else []).
    { induction m as [|x m IH]; intros NDm Il; [reflexivity|]. cbn [flat_map existsb map] in *. apply NoDup_cons_iff in NDm as [Nx NDm]. rewrite filter_app, IH by (auto; intros y Iy; apply Il; now right).
      destruct (eqb_spec (j_name x) (j_name j)) as [Ex|Nx'].
      - cbn [orb]. assert (x = j). { assert (Ix : In x l) by (apply Il; now left). clear - ND I Ix Ex. induction l as [|y l IH]; [contradiction|]. cbn in ND. apply NoDup_cons_iff in ND as [Ny ND].
          destruct I as [->|I], Ix as [->|Ix]; [reflexivity| | |auto]; exfalso; apply Ny; [rewrite <- Ex|rewrite Ex]; now apply in_map. }
        subst x. replace (existsb (fun j' => eqb (j_name j') (j_name j)) m) with false; [apply app_nil_r|]. symmetry. apply not_true_iff_false. intros X. apply existsb_exists in X as (y & Iy & Hy). apply eqb_true in Hy. apply Nx. rewrite <- Hy. now apply in_map.
      - cbn [orb]. rewrite Oth; [reflexivity|apply Il; now left|exact Nx']. }
    assert (Ej : existsb (fun j' => eqb (j_name j') (j_name j)) l = true) by (apply existsb_exists; exists j; split; [exact I|apply eqb_refl]).
    assert (St : forall m, NoDup (map j_name m) -> incl m l -> filter (about_jail (j_name j)) (map (fun j => CStart (j_name j)) (filter (fine E allow) m)) = if existsb (fun j' => eqb (j_name j') (j_name j)) m && fine E allow j then [CStart (j_name j)] else []).
    { induction m as [|x m IH]; intros NDm Il; [reflexivity|]. cbn [existsb map] in *. apply NoDup_cons_iff in NDm as [Nx NDm]. specialize (IH NDm (fun y Iy => Il y (or_intror Iy))).
      destruct (eqb_spec (j_name x) (j_name j)) as [Ex|Nx'].
      - assert (x = j). { assert (Ix : In x l) by (apply Il; now left). clear - ND I Ix Ex. induction l as [|y l IH]; [contradiction|]. cbn in ND. apply NoDup_cons_iff in ND as [Ny ND].
          destruct I as [->|I], Ix as [->|Ix]; [reflexivity| | |auto]; exfalso; apply Ny; [rewrite <- Ex|rewrite Ex]; now apply in_map. }
        subst x. replace (existsb (fun j' => eqb (j_name j') (j_name j)) m) with false in IH by (symmetry; apply not_true_iff_false; intros X; apply existsb_exists in X as (y & Iy & Hy); apply eqb_true in Hy; apply Nx; rewrite <- Hy; now apply in_map).
        cbn [orb andb] in *. cbn [filter]. destruct (fine E allow j); [|exact IH]. cbn [map filter]. rewrite IH. unfold about_jail. cbn [about]. now rewrite eqb_refl.
      - cbn [orb]. cbn [filter]. destruct (fine E allow x); [|exact IH]. cbn [map filter]. rewrite IH. unfold about_jail at 1. cbn [about]. destruct (eqb_spec (j_name x) (j_name j)); [contradiction|reflexivity]. }
    rewrite (Body l ND (incl_refl l)), (St l ND (incl_refl l)), Ej. cbn [andb]. unfold fine. destruct (jail_convert E allow j) as [|sj []] eqn:C; [contradiction| |].
    + destruct Sj1 as (e & Hs & ->). split; [exists e; split; [reflexivity|]|rewrite Hs; reflexivity]. apply in_app_iff. left. apply in_flat_map. exists j. split; [exact I|]. rewrite Hs. now left.
    + destruct Sj1 as (-> & Ab & _). cbn [negb]. f_equal. clear - Ab. induction Ab as [|c sj Hc _ IH]; [reflexivity|]. cbn. rewrite IH. unfold about_jail. rewrite Hc, eqb_refl. reflexivity.
Qed.
(** A jail with a wrong filter or action gives its error only. *)
Theorem C73_wrong E force allow name j : jail_get_options E force name = JBad j -> j_name j = name /\ exists e, jail_convert E allow j = COk [CError e] true.
Proof. intros H. apply jail_bad in H as [Hn H]. split; [exact Hn|apply H]. Qed.
(** A jail for which no log file is found gives its error only, if it is to be skipped then; otherwise the
    conversion raises, unless this is allowed. *)
Theorem C73_missing E force allow name j t : jail_get_options E force name = JOk j -> is_enabled force (j_opts j) = true ->
  dget (tx "logpath") (j_opts j) = Some (VText t) -> uses_journal (j_opts j) = false -> log_files E (split nl t) [] ->
  (dget (tx "skip_if_nologs") (j_opts j) = Some (VBool true) -> forall s e, jail_convert E allow j = COk s e -> e = true /\ exists m, s = [CError m])
  /\ (dget (tx "skip_if_nologs") (j_opts j) = Some (VBool false) -> allow = false -> jail_convert E allow j = CRaise).
Proof.
  intros R En L U LF. destruct (jail_read E force name j R En) as (_ & [W I] & _). apply (missing_logs E allow j t); auto.
  apply dget_None. intros Ik. apply I in Ik. vm_compute in Ik. repeat (destruct Ik as [Ik|Ik]; [discriminate Ik|]). exact Ik.
Qed.
(** DEMO: a good jail, one that is not enabled, one with a wrong filter, one without log files. *)
Definition demo_names : list text := [tx "INCLUDES"; tx "bad"; tx "sshd"; tx "off"; tx "skip"].
Definition demo_jails : list jail := Eval vm_compute in match jails_get_options E1 false true demo_names with Some (l, _) => l | None => [] end.
Example C73_demo : jails_get_options E1 false true demo_names = Some (demo_jails, true) /\ jails_get_options E1 false false demo_names = Some (demo_jails, false)
  /\ NoDup (map j_name demo_jails)
  /\ jails_convert E1 false demo_jails = Some ([CError (tx "Jail 'bad' skipped, because of wrong configuration: Unable to read the filter")] ++ snd demo_sshd
       ++ [CError (tx "Jail 'skip' skipped, because of missing log files."); CStart (tx "sshd")]).
Proof. split; [vm_compute; reflexivity|]. split; [vm_compute; reflexivity|]. split; [apply nodupb_ok; vm_compute; reflexivity|]. vm_compute. reflexivity. Qed.
Example C73_demo_missing : exists j, jail_get_options E1 false (tx "skip") = JOk j /\ is_enabled false (j_opts j) = true /\ dget (tx "logpath") (j_opts j) = Some (VText (tx "/missing"))
  /\ uses_journal (j_opts j) = false /\ log_files E1 (split nl (tx "/missing")) [] /\ dget (tx "skip_if_nologs") (j_opts j) = Some (VBool true).
Proof.
  eexists. split; [vm_compute; reflexivity|]. split; [vm_compute; reflexivity|]. split; [vm_compute; reflexivity|]. split; [vm_compute; reflexivity|]. split; [|vm_compute; reflexivity].
  refine (LF_cons E1 (tx "/missing") (tx "/missing") (tx "head") [] [] _ (LF_nil E1)). apply PL_plain. vm_compute. intros H. repeat (destruct H as [H|H]; [discriminate H|]). exact H.
Qed.
(** Finding: a jail whose log file is missing keeps all other jails from being configured, since the
    exception is not caught where the jails are converted, while a jail with a wrong filter does not. *)
Theorem C73_isolated_refuted : exists E j1 j2 s, jail_get_options E false (tx "sshd") = JOk j1 /\ jail_get_options E false (tx "lost") = JOk j2 /\ jail_convert E false j1 = COk s false
  /\ jails_convert E false [j1; j2] = None.
Proof. exists E1. eexists. eexists. eexists. split; [vm_compute; reflexivity|]. split; [vm_compute; reflexivity|]. split; vm_compute; reflexivity. Qed.

(** ** C74: reading options *)
(** An option that is not given beforehand has the value written in the file, of its kind; its default if
    it is not there or wrong; no other option is set.  Reading fails only on other errors. *)
Theorem C74_options E get l given shouldExist convert : NoDup (names l) ->
  match get_options E get l given shouldExist convert [] with
  | None => exists n, In n (names l) /\ dmem n given = false /\ (get n = GOther \/ get n = GNoSection /\ shouldExist = true)
  | Some o =>
      NoDup (dkeys o)
      /\ (forall t n d, In (t, n, d) l -> dget n o = if dmem n given then None else option_value E convert (get n) t d)
      /\ (forall n, ~ In n (names l) -> dget n o = None)
      /\ (forall n, In n (names l) -> dmem n given = false -> get n <> GOther /\ (get n = GNoSection -> shouldExist = false))
  end.
Proof.
  intros ND. destruct (get_options E get l given shouldExist convert []) as [o|] eqn:H; [|now apply get_options_error in H].
  destruct (get_options_spec E _ _ _ _ _ _ _ H ND dwf_nil) as (W & _ & A & B). split; [exact W|]. split.
  { intros t n d I. destruct (dmem n given) eqn:M; [rewrite A by (now right); reflexivity|]. rewrite (B t n d I M). destruct (option_value _ _ _ _ _); reflexivity. }
  split; [intros n N; rewrite A by (now left); reflexivity|]. intros n I M. split.
  - intros G. enough (get_options E get l given shouldExist convert [] = None) by congruence. apply get_options_error. exists n. auto.
  - intros G. destruct shouldExist; [|reflexivity]. enough (get_options E get l given true convert [] = None) by congruence. apply get_options_error. exists n. auto.
Qed.
Lemma incl_of (a b : list text) : forallb (fun k => inb k b) a = true -> incl a b.
Proof. intros H k Hk. rewrite forallb_forall in H. apply inb_In. now apply H. Qed.
(** The options of a jail: each one is that of its section, with the filter's options known to it. *)
Theorem C74_jail E force name j : jail_get_options E force name = JOk j -> is_enabled force (j_opts j) = true ->
  j_name j = name /\ NoDup (dkeys (j_opts j)) /\ incl (dkeys (j_opts j)) (names jail_options)
  /\ exists kn, (j_filter j = None -> kn = None) /\ forall t n d, In (t, n, d) jail_options -> dget n (j_opts j) = option_value E true (e_get2 E kn name n) t d.
Proof.
  intros R En. destruct (jail_read E force name j R En) as (Hn & [W I] & (kn & K1 & K2) & _). split; [exact Hn|]. split; [exact W|]. split.
  - intros k Hk. apply I in Hk. revert Hk. apply (incl_of (names config_opts) (names jail_options)). vm_compute. reflexivity.
  - exists kn. split; [exact K1|]. intros t n d H. apply K2. cbn [jail_options texts map app In] in H.
    repeat (destruct H as [<-|H]; [cbn [config_opts filter_opts app In]; auto 40|]). contradiction.
Qed.
(** DEMO: values of all kinds, a wrong number, an option that is missing, one that is given. *)
Example C74_demo : NoDup (names config_opts)
  /\ get_options E1 (fun k => if eqb k (tx "a") then GVal (tx "5") else if eqb k (tx "b") then GVal (tx "five") else if eqb k (tx "c") then GVal (tx "On") else if eqb k (tx "e") then GVal (tx "x") else GNoOption)
       [(TInt, tx "a", VNone); (TInt, tx "b", VInt 7); (TBool, tx "c", VNone); (TString, tx "d", VText (tx "def")); (TString, tx "e", VNone); (TString, tx "f", VNone)] [(tx "e", VNone)] false true []
     = Some [(tx "a", VInt 5); (tx "b", VInt 7); (tx "c", VBool true); (tx "d", VText (tx "def"))].
Proof. split; [apply nodup_config|]. vm_compute. reflexivity. Qed.
(** Finding: a wrong number for an option without a default, like maxretry = five, is not left out, but the
    server is told to set the option to None. *)
Definition E3 : env := demo_env [(tx "x", [(tx "enabled", tx "yes"); (tx "maxretry", tx "five")])] [] [].
Theorem C74_wrong_number_refuted : exists E j F s, configured E false false (tx "x") j F s /\ e_get1 E (tx "x") (tx "maxretry") = GVal (tx "five") /\ e_int E (tx "five") = None
  /\ told (tx "maxretry") s = Some VNone.
Proof.
  destruct (demo_read E3 (tx "x")) as [[[j F] s]|] eqn:D; [|vm_compute in D; discriminate].
  exists E3, j, F, s. split; [apply demo_configured; [exact D| |]; vm_compute in D; injection D as <- <- <-; vm_compute; reflexivity|]. split; [reflexivity|]. split; [reflexivity|].
  vm_compute in D. injection D as <- <- <-. vm_compute. reflexivity.
Qed.

(** ** C75: the actions of a jail *)
(** The actions of a jail are those of its list, in order, with the names, files and options written there;
    a parameter counts more than the file's [Init], and that more than its [Definition]. *)
Theorem C75_actions E force name j : jail_get_options E force name = JOk j -> is_enabled force (j_opts j) = true ->
  exists r, read_actions (split_with_options (text_of (vget (tx "action") (j_opts j)))) = Some r /\ Forall2 (action_of E name (j_opts j)) r (j_actions j).
Proof. intros R En. destruct (jail_read E force name j R En) as (_ & _ & _ & A & _). now apply all_actions_spec in A. Qed.
(** Two actions with the same file have the same name exactly if they are given the same name, or the one's
    name is the jail's, a dash and the other's. *)
Theorem C75_names jail file p1 p2 a1 a2 : dget (tx "actname") p1 = None -> dget (tx "actname") p2 = None -> action_name_is jail file p1 a1 -> action_name_is jail file p2 a2 ->
  let n1 := own_name jail p1 in let n2 := own_name jail p2 in
  a1 = a2 <-> n1 = n2 \/ ~ has_prefix jail n2 /\ n1 = jail ++ tx "-" ++ n2 \/ ~ has_prefix jail n1 /\ n2 = jail ++ tx "-" ++ n1.
Proof.
  unfold action_name_is. intros H1 H2. rewrite H1, H2. cbv zeta. generalize (own_name jail p1) (own_name jail p2). intros n1 n2 D1 D2. rewrite <- suffix_eq.
  assert (K : forall n a, default_name jail file n a -> a = file ++ suffix jail n).
  { intros n a [(r & -> & ->)|[N ->]]; unfold suffix.
    - assert (S' : starts_with jail (jail ++ r) = true) by (apply starts_prefix; now exists r). rewrite S', skipn_app, skipn_all, Nat.sub_diag. reflexivity.
    - destruct (starts_with jail n) eqn:S'; [exfalso; apply N; now apply starts_prefix|reflexivity]. }
  rewrite (K _ _ D1), (K _ _ D2). split; [apply app_inv_head|congruence].
Qed.
(** DEMO: the actions of the jail sshd. *)
Example C75_demo : exists j, jail_get_options E1 false (tx "sshd") = JOk j /\ is_enabled false (j_opts j) = true
  /\ read_actions (split_with_options (text_of (vget (tx "action") (j_opts j)))) = Some [(tx "ban", [(tx "port", tx "22")]); (tx "mail.py", [(tx "dest", tx "root")])]
  /\ map action_args (j_actions j) = [[VText (tx "ban")]; [VText (tx "mail"); VText (tx "/etc/fail2ban/action.d/mail.py"); VText (tx "{}")]].
Proof. eexists. split; [vm_compute; reflexivity|]. vm_compute. auto. Qed.
(** Finding: "ensure we've unique action name per jail" (actionreader.py:64) is not ensured: in the jail
    "ssh", ban[name=ssh-a] and ban[name=a] are both called "ban-a"; the server refuses the second. *)
Theorem C75_unique_refuted : exists file jail p1 p2 a, own_name jail p1 <> own_name jail p2 /\ action_name_is jail file p1 a /\ action_name_is jail file p2 a.
Proof.
  exists (tx "ban"), (tx "ssh"), [(tx "name", tx "ssh-a")], [(tx "name", tx "a")], (tx "ban-a"). split; [vm_compute; discriminate|]. split.
  - left. exists (tx "-a"). split; reflexivity.
  - right. split; [intros [r H]; vm_compute in H; discriminate|reflexivity].
Qed.

Print Assumptions C71_demo.
Print Assumptions C71_added.
Print Assumptions C71_settings.
Print Assumptions C71_first.
Print Assumptions C71_datepattern.
Print Assumptions C71_regexes.
Print Assumptions C71_journal.
Print Assumptions C71_ignoreip.
Print Assumptions C71_logs.
Print Assumptions C71_actions.
Print Assumptions C71_order.
Print Assumptions C71_exists.
Print Assumptions C71_words_refuted.
Print Assumptions C72_precedence.
Print Assumptions C72_demo.
Print Assumptions C72_jail_first_refuted.
Print Assumptions C73_enabled.
Print Assumptions C73_read.
Print Assumptions C73_stream.
Print Assumptions C73_wrong.
Print Assumptions C73_missing.
Print Assumptions C73_demo.
Print Assumptions C73_demo_missing.
Print Assumptions C73_isolated_refuted.
Print Assumptions C74_options.
Print Assumptions C74_jail.
Print Assumptions C74_demo.
Print Assumptions C74_wrong_number_refuted.
Print Assumptions C75_actions.
Print Assumptions C75_names.
Print Assumptions C75_demo.
Print Assumptions C75_unique_refuted.
