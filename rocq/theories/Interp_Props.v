(** C102-C104: the values of options with references. *)
From Coq Require Import Arith.
From Verif Require Import Base Text Config_Model Config_Spec Config_Proofs Config_Proofs3 Config_Props Interp_Model Interp_Spec Interp_Proofs Interp_Proofs2 Interp_Proofs3.
Local Open Scope string_scope.
Local Open Scope list_scope.
Local Open Scope nat_scope.

(** ** Demonstration *)
Definition opts (l : list (string * string)) : dict text text := map (fun kv => (tx (fst kv), tx (snd kv))) l.
Definition conf (d : list (string * string)) (l : list (string * list (string * string))) : config :=
  mkC (opts d) (map (fun s => (tx (fst s), opts (snd s))) l).
Definition demo_conf : config := conf
  [("banaction", "iptables"); ("action_", "%(banaction)s[port=%(port)s]"); ("port", "any")]
  [("sshd", [("port", "22"); ("action_", "%(default/action_)s %(__name__)s 100%%"); ("bad", "100%"); ("gone", "a%(no/thing)s"); ("other", "%(apache/log)s")]);
   ("apache", [("log", "/var/log/%(banaction)s-%(port)s"); ("port", "80")]);
   ("KNOWN/sshd", [("port", "2222")])].

(** Decides whether a text is tidy *)
Definition begins (p s : text) : bool := eqb (firstn (length p) s) p.
Fixpoint tidyb (s : text) : bool :=
  match s with
  | [] => true
  | _ :: t => negb (begins (tx "%%(") s) &&
              (if begins (tx "%(") s then let n := fst (span (fun c => negb (eqb c rpar)) (skipn 2 s)) in eqb (lower n) n else true) && tidyb t
  end.
Lemma begins_app p r : begins p (p ++ r) = true.
Proof. unfold begins. rewrite firstn_app, Nat.sub_diag, firstn_all, firstn_O, app_nil_r. apply eqb_refl. Qed.
Lemma tidyb_suffix a b : tidyb (a ++ b) = true -> tidyb b = true.
Proof. induction a as [|c a IH]; auto. cbn [app tidyb]. rewrite !andb_true_iff. tauto. Qed.
Lemma tidyb_tidy v : tidyb v = true -> tidy v.
Proof.
  intros H. split.
  - intros a b ->. apply tidyb_suffix in H. pose proof (begins_app (tx "%%(") b) as B. cbn [tidyb tx list_ascii_of_string app] in H, B. rewrite B in H. discriminate.
  - intros a n b -> N _. apply tidyb_suffix in H. pose proof (begins_app (tx "%(") (n ++ tx ")s" ++ b)) as B. cbn [tidyb tx list_ascii_of_string app] in H, B. rewrite B in H.
    apply andb_true_iff in H as [H _]. apply andb_true_iff in H as [_ H]. cbn [skipn] in H. change ")"%char with rpar in *. rewrite span_unique in H; [|now apply no_rpar|reflexivity].
    now apply eqb_true in H.
Qed.
Definition tidy_confb (c : config) (section : text) : bool :=
  tidyb section && forallb (fun s => forallb (fun kv => tidyb (snd kv)) (snd s)) (sections c) && forallb (fun kv => tidyb (snd kv)) (defaults c).
Lemma tidy_confb_tidy c section : tidy_confb c section = true -> tidy_config c section [].
Proof.
  unfold tidy_confb. rewrite !andb_true_iff, !forallb_forall. intros [[T S] D]. split; [now apply tidyb_tidy|]. split; [|split].
  - intros s o v V. unfold value_of in V. destruct (dget s (sections c)) as [d|] eqn:E; [|discriminate]. apply dget_In in E, V. apply S in E. rewrite forallb_forall in E.
    apply tidyb_tidy. now apply E in V.
  - intros o v V. apply dget_In, D in V. now apply tidyb_tidy.
  - intros k v [].
Qed.

(** ** C102 *)
(** C102: for every configuration whose values are tidy, every section, every option and all variables: the value is what its text
    means, with its references replaced down to the tenth level, or the error it deserves; nothing is ever replaced in part. *)
Theorem C102_value c section vars option v scope r : section <> [] -> tidy_config c section vars -> no_module c section vars -> there c section ->
  (forall n, names c section vars n (scope n)) ->
  first_some (given vars (lower option)) (first_some (value_of c section (lower option)) (dget (lower option) (defaults c))) = Some v ->
  (get c section option false vars = r <-> means scope 10 v r).
Proof. exact (get_means c section vars option v scope r). Qed.
(** What names stand for is settled *)
Theorem C102_names c section vars : exists scope, forall n x, names c section vars n x <-> x = scope n.
Proof. exists (the_scope c section vars). intros n x. split; [apply names_the_scope|]. intros ->. apply the_scope_names. Qed.
(** So is what a text means *)
Theorem C102_meaning scope d v : exists r, means scope d v r.
Proof. apply means_exists. Qed.
(** A text, a reference, a reference in the value of a reference, the name of the section and a doubled percent sign *)
Example C102_value_demo : tx "sshd" <> [] /\ tidy_config demo_conf (tx "sshd") [] /\ no_module demo_conf (tx "sshd") [] /\ there demo_conf (tx "sshd") /\
  get demo_conf (tx "sshd") (tx "ACTION_") false [] = Val (tx "iptables[port=22] sshd 100%") /\
  get demo_conf (tx "sshd") (tx "action_") false [(tx "Port", tx "23")] = Val (tx "iptables[port=23] sshd 100%") /\
  get demo_conf (tx "sshd") (tx "other") false [] = Val (tx "/var/log/iptables-22") /\
  get demo_conf (tx "sshd") (tx "bad") false [] = Err Malformed /\ get demo_conf (tx "sshd") (tx "gone") false [] = Err (Missing (tx "no/thing")).
Proof.
  split; [discriminate|]. split; [apply tidy_confb_tidy; vm_compute; reflexivity|]. split; [repeat split|]. split; [left; discriminate|].
  repeat split; vm_compute; reflexivity.
Qed.

(** C102: there is no such section and there is no such option are told apart from all else, with interpolation and without. *)
Theorem C102_errors c section option raw vars :
  (get c section option raw vars = Err NoSection <-> ~ there c section) /\
  (get c section option raw vars = Err NoOption <-> there c section /\
     first_some (given vars (lower option)) (first_some (value_of c section (lower option)) (dget (lower option) (defaults c))) = None).
Proof. exact (get_errors c section option raw vars). Qed.
(** C102: without interpolation it is the text that was given last among the variables, otherwise of the section, otherwise the default. *)
Theorem C102_raw c section option vars v : get c section option true vars = Val v <-> there c section /\
  first_some (given vars (lower option)) (first_some (value_of c section (lower option)) (dget (lower option) (defaults c))) = Some v.
Proof. exact (get_raw c section option vars v). Qed.
Example C102_raw_demo : get demo_conf (tx "sshd") (tx "Bad") true [] = Val (tx "100%") /\ get demo_conf (tx "sshd") (tx "banaction") true [] = Val (tx "iptables") /\
  get demo_conf (tx "sshd") (tx "bad") true [(tx "bad", tx "1"); (tx "BAD", tx "2")] = Val (tx "2") /\
  get demo_conf (tx "nginx") (tx "port") true [] = Err NoSection /\ get demo_conf (tx "sshd") (tx "log") false [] = Err NoOption.
Proof. repeat split; vm_compute; reflexivity. Qed.

(** C102: for all configurations: where no reference leads into another section, the value depends on no other section. *)
Theorem C102_own_section c c' section option raw vars : value_of c section = value_of c' section -> (there c section <-> there c' section) -> defaults c = defaults c' ->
  local_text section -> (forall o v, value_of c section o = Some v -> local_text v) -> (forall o v, dget o (defaults c) = Some v -> local_text v) ->
  (forall k v, In (k, v) vars -> local_text v) ->
  get c section option raw vars = get c' section option raw vars.
Proof.
  intros V T D Ls L1 L2 L3.
  assert (O : forall k, own c section vars k = own c' section vars k) by (intros k; unfold own; now rewrite V, D).
  assert (Lo : forall k w, own c section vars k = Some w -> local_text w).
  { intros k w H. unfold own in H. destruct (given vars k) as [u|] eqn:G; cbn in H; [injection H as ->; apply given_In in G as [k' I]; eauto|].
    destruct (value_of c section k) as [u|] eqn:E; cbn in H; [injection H as ->; eauto|eauto]. }
  unfold get. pose proof (unify_there c section vars) as U. pose proof (unify_there c' section vars) as U'.
  destruct (unify c section vars) as [m|] eqn:E; destruct (unify c' section vars) as [m'|] eqn:E'.
  - rewrite (unify_get _ _ _ _ E), (unify_get _ _ _ _ E'), <- O. destruct (own c section vars (lower option)) as [v|] eqn:Ov; [|reflexivity].
    destruct raw; [reflexivity|]. apply interpolate_alike; eauto.
    + intros k _. now rewrite (unify_get _ _ _ _ E), (unify_get _ _ _ _ E').
    + intros k w _ Q. rewrite (unify_get _ _ _ _ E) in Q. eauto.
  - assert (X : there c' section) by (apply T, U; eauto). apply U' in X as [m' X]. discriminate.
  - assert (X : there c section) by (apply T, U'; eauto). apply U in X as [m X]. discriminate.
  - reflexivity.
Qed.
Example C102_own_section_demo :
  let c := conf [("a", "1%(b)s")] [("x", [("b", "2"); ("c", "%(a)s3")]); ("y", [("d", "%")])] in
  let c' := conf [("a", "1%(b)s")] [("x", [("b", "2"); ("c", "%(a)s3")])] in
  value_of c (tx "x") = value_of c' (tx "x") /\ defaults c = defaults c' /\ c <> c' /\ get c (tx "x") (tx "c") false [] = Val (tx "123") /\
  get c' (tx "x") (tx "c") false [] = Val (tx "123").
Proof. cbv zeta. split; [reflexivity|]. split; [reflexivity|]. split; [vm_compute; discriminate|]. split; vm_compute; reflexivity. Qed.

(** C102, what fails: an option has its value whatever other options are called. The test meant for the name __name__ looks for the name
    of the module; if an option is called fail2ban.client.configparserinc, every value of the section is empty. *)
Theorem C102_module_refuted : exists c section option v, value_of c section option = Some v /\ ~ In "%"%char v /\ v <> [] /\ get c section option false [] = Val [].
Proof.
  exists (conf [] [("sshd", [("port", "22"); ("fail2ban.client.configparserinc", "x")])]), (tx "sshd"), (tx "port"), (tx "22").
  split; [reflexivity|]. split; [intros [H|[H|[]]]; discriminate|]. split; [discriminate|]. vm_compute. reflexivity.
Qed.

(** ** C103 *)
(** C103: for all configurations: a reference %(sec/opt)s in lower case is replaced by the option of that section, or by the default if
    the section does not have it, or by nothing but an error if there is no such section; %(default/opt)s by the default; %(known/opt)s by
    what the option was before, or by the default. *)
Theorem C103_reference c section vars option a sec opt b x : section <> [] -> no_module c section vars -> there c section ->
  first_some (given vars (lower option)) (first_some (value_of c section (lower option)) (dget (lower option) (defaults c)))
    = Some (a ++ tx "%(" ++ (sec ++ tx "/" ++ opt) ++ tx ")s" ++ b) ->
  Forall (fun t => ~ In "%"%char t) [a; opt; b] -> ~ In ")"%char opt -> is_cross (sec ++ tx "/" ++ opt) sec opt -> lower (sec ++ tx "/" ++ opt) = sec ++ tx "/" ++ opt ->
  first_some (given vars (sec ++ tx "/" ++ opt)) (first_some (value_of c section (sec ++ tx "/" ++ opt)) (dget (sec ++ tx "/" ++ opt) (defaults c))) = None ->
  elsewhere c section sec opt x -> (forall w, x = Some w -> ~ In "%"%char w) ->
  get c section option false vars = match x with Some w => Val (a ++ w ++ b) | None => Err (Missing (sec ++ tx "/" ++ opt)) end.
Proof.
  intros Ne NoM Th O P Nr C L N El Px. inversion P as [|? ? Pa P1]; subst. inversion P1 as [|? ? Po P2]; subst. inversion P2 as [|? ? Pb _]; subst.
  assert (Sc : the_scope c section vars (sec ++ tx "/" ++ opt) = x).
  { symmetry. apply names_the_scope. eapply n_cross; eauto. intros E. apply cross_slash in C. rewrite E in C. apply inb_In in C. vm_compute in C. discriminate. }
  rewrite (get_one c section vars option a (sec ++ tx "/" ++ opt) b); auto.
  - now rewrite Sc.
  - unfold own. rewrite O. cbn [written]. now rewrite <- !app_assoc.
  - destruct C as (_ & _ & _ & F). intros I. apply in_app_iff in I as [I|[I|I]]; [|discriminate|now apply Po]. rewrite Forall_forall in F. apply F in I as [I|I]; discriminate.
  - destruct C as (_ & Ns & _ & F). split; [destruct sec; [congruence|discriminate]|]. intros I. apply in_app_iff in I as [I|[I|I]]; [|discriminate|now apply Nr].
    rewrite Forall_forall in F. apply F in I as [I|I]; discriminate.
  - rewrite Sc. exact Px.
Qed.
Example C103_reference_demo :
  let c := conf [("port", "any"); ("b", "B")] [("ssh-d", [("p", "<%(my-set/port)s>"); ("q", "<%(known/p)s>"); ("r", "%(default/port)s!"); ("s", "%(my-set/b)s"); ("t", "%(none/b)s")]); ("my-set", [("port", "22")]);
    ("KNOWN/ssh-d", [("p", "old")])] in
  map (fun o => get c (tx "ssh-d") (tx o) false []) ["p"; "q"; "r"; "s"; "t"] = [Val (tx "<22>"); Val (tx "<old>"); Val (tx "any!"); Val (tx "B"); Err (Missing (tx "none/b"))] /\
  is_cross (tx "my-set" ++ tx "/" ++ tx "port") (tx "my-set") (tx "port") /\ elsewhere c (tx "ssh-d") (tx "my-set") (tx "port") (Some (tx "22")).
Proof.
  cbv zeta. split; [vm_compute; reflexivity|]. split.
  - repeat split; try discriminate. repeat (constructor; [vm_compute; auto|]). constructor.
  - match goal with |- elsewhere ?c _ _ _ _ => change (Some (tx "22")) with (first_some (value_of c (tx "my-set") (tx "port")) (dget (tx "port") (defaults c))) end.
    apply e_section; discriminate.
Qed.

(** C103: after reading any files: %(known/o)s in the value that was said last stands for the value said before it, if there was one, and
    for the default said last otherwise. *)
Theorem C103_known n w share ca files ca' c q : read_files n w share ca empty files = Some (ca', c, q) ->
  exists l, get_includes n w share ca files = Some (ca', l) /\ (Forall Config_Spec.proper (contents w l) ->
    Forall (fun p => Forall (fun ns => ~ known_name (fst ns)) (f_sections p)) (contents w l) ->
    forall s o a b, ~ known_name s -> s <> [] -> no_module c s [] ->
    last_of (said s o (flat_map says (contents w l))) = Some (a ++ tx "%(" ++ (tx "known" ++ tx "/" ++ o) ++ tx ")s" ++ b) ->
    Forall (fun t => ~ In "%"%char t) [a; o; b] -> o <> [] -> ~ In ")"%char o -> lower o = o ->
    value_of c s (tx "known" ++ tx "/" ++ o) = None -> dget (tx "known" ++ tx "/" ++ o) (defaults c) = None ->
    forall before, before = first_some (before_last_of (said s o (flat_map says (contents w l)))) (last_of (said_default o (contents w l))) ->
    (forall x, before = Some x -> ~ In "%"%char x) ->
    get c s o false [] = match before with Some x => Val (a ++ x ++ b) | None => Err (Missing (tx "known" ++ tx "/" ++ o)) end).
Proof.
  intros R. destruct (C48_value _ _ _ _ _ _ _ _ R) as (l & G & V). destruct (C48_known _ _ _ _ _ _ _ _ R) as (l' & G' & K). rewrite G in G'. injection G' as <-.
  exists l. split; [exact G|]. intros P NK s o a b Ns Ne NoM La Pc No Nr L N1 N2 before -> Px. destruct (V P) as [V1 V2]. specialize (K P NK s o Ns). specialize (V1 s o Ns). rewrite La in V1.
  assert (Th : there c s). { left. unfold value_of in V1. destruct (dget s (sections c)); [discriminate|discriminate V1]. }
  apply C103_reference with (section := s); auto.
  - rewrite L, V1. reflexivity.
  - repeat split; try discriminate; auto. repeat (constructor; [vm_compute; auto|]). constructor.
  - unfold lower in *. rewrite !map_app, L. reflexivity.
  - rewrite N1, N2. reflexivity.
  - rewrite <- K, <- V2. now apply e_known.
Qed.
(** filter.conf, filter.local *)
Definition two : world := world_of
  [("/f/x.conf", ini [] [] [("Definition", [("failregex", "^stock"); ("mode", "%(known/mode)s")])]);
   ("/f/x.local", ini [] [] [("Definition", [("failregex", "%(known/failregex)s or mine")])])].
Example C103_known_demo : exists ca c q, read_files 9 two false [] empty [tx "/f/x.conf"] = Some (ca, c, q) /\
  get c (tx "Definition") (tx "failregex") false [] = Val (tx "^stock or mine") /\
  get c (tx "Definition") (tx "mode") false [] = Err (Missing (tx "known/mode")).
Proof. do 3 eexists. split; [vm_compute; reflexivity|]. split; vm_compute; reflexivity. Qed.

(** C103, what fails: each file may refer to what was known before it. If two files one after the other extend the same option of a
    third by %(known/option)s, the reference in the second is replaced by itself until the levels are used up. *)
Definition three : world := world_of
  [("/f/x.conf", ini [] ["extra.conf"] [("Definition", [("failregex", "^stock")])]);
   ("/f/extra.conf", ini [] [] [("Definition", [("failregex", "%(known/failregex)s or extra")])]);
   ("/f/x.local", ini [] [] [("Definition", [("failregex", "%(known/failregex)s or mine")])])].
Theorem C103_chain_refuted : exists w files ca c q, read_files 9 w false [] empty files = Some (ca, c, q) /\ length q = 3 /\
  said (tx "Definition") (tx "failregex") (flat_map says (contents w q)) = map tx ["^stock"; "%(known/failregex)s or extra"; "%(known/failregex)s or mine"] /\
  get c (tx "Definition") (tx "failregex") false [] = Err TooDeep.
Proof. exists three, [tx "/f/x.conf"]. do 3 eexists. split; [vm_compute; reflexivity|]. repeat split; vm_compute; reflexivity. Qed.
(** C103, what fails: an option of any section can be referred to. The name of a reference is put into lower case when it is looked up but not
    when it is entered: no option of a section with a capital letter can be referred to, and neither DEFAULT/option, although the code compares
    these names without regard to case. *)
Theorem C103_case_refuted : exists c section,
  value_of c section (tx "o") = Some (tx "%(Init/p)s") /\ value_of c (tx "Init") (tx "p") = Some (tx "1") /\ get c section (tx "o") false [] = Err (Missing (tx "init/p")) /\
  value_of c section (tx "q") = Some (tx "%(DEFAULT/p)s") /\ dget (tx "p") (defaults c) = Some (tx "2") /\ get c section (tx "q") false [] = Err (Missing (tx "default/p")) /\
  foreign c section (tx "DEFAULT") (tx "p") = Some (tx "2").
Proof.
  exists (conf [("p", "2")] [("Init", [("p", "1")]); ("Definition", [("o", "%(Init/p)s"); ("q", "%(DEFAULT/p)s")])]), (tx "Definition"). repeat split; vm_compute; reflexivity.
Qed.
(** C103, what fails: a reference has its value wherever it stands. After a doubled percent sign and a parenthesis the search for references
    runs over the next one. *)
Theorem C103_hidden_refuted : exists c section, get c section (tx "a") false [] = Val (tx "1") /\ value_of c section (tx "a") = Some (tx "%(other/p)s") /\
  value_of c section (tx "b") = Some (tx "%%(x/%(other/p)s") /\ get c section (tx "b") false [] = Err (Missing (tx "other/p")).
Proof. exists (conf [] [("s", [("a", "%(other/p)s"); ("b", "%%(x/%(other/p)s")]); ("other", [("p", "1")])]), (tx "s"). repeat split; vm_compute; reflexivity. Qed.

(** ** C104 *)
(** C104: for all configurations: an option named sec/opt is the option of that section in the scope of that section, of DEFAULT if sec is
    default, of what was known and then of the section itself if sec is known; only if there is none, it is the option of that name. *)
Theorem C104_named c section option raw vars sec opt secs r : ex_name option sec opt -> asks section sec secs ->
  (get_ex c section option raw vars = r <-> first_known (map (fun s => get c s opt raw []) secs ++ [get c section option raw vars]) r).
Proof. apply get_ex_named. Qed.
(** C104: any other option is what it is. *)
Theorem C104_plain c section option raw vars : (forall sec opt, ~ ex_name option sec opt) -> get_ex c section option raw vars = get c section option raw vars.
Proof. apply get_ex_plain. Qed.
Example C104_demo :
  let c := conf [("d", "0")] [("Definition", [("a", "new"); ("x", "X")]); ("KNOWN/Definition", [("a", "old")]); ("Init", [("b", "%(d)s")])] in
  ex_name (tx "Init/b") (tx "Init") (tx "b") /\ asks (tx "Definition") (tx "Init") [tx "Init"] /\
  map (fun o => get_ex c (tx "Definition") (tx o) false []) ["known/a"; "Known/x"; "Init/b"; "Default/d"; "a"; "none/a"; "Init/zz"] =
    [Val (tx "old"); Val (tx "X"); Val (tx "0"); Val (tx "0"); Val (tx "new"); Err NoOption; Err NoOption] /\
  get_ex c (tx "Definition") (tx "none/a") false [(tx "none/a", tx "var")] = Val (tx "var").
Proof.
  cbv zeta. split.
  { split; [now left|]. split; [discriminate|]. split; [discriminate|]. split.
    - repeat (constructor; [vm_compute; auto|]). constructor.
    - constructor; [split; [reflexivity|discriminate]|constructor]. }
  split; [apply a_other; discriminate|]. split; vm_compute; reflexivity.
Qed.
(** C104, what fails: known/opt is what the option was before, otherwise what it is. Once any other option was overwritten, the default
    goes before the value of the section. *)
Theorem C104_default_refuted : exists c c', (forall o, value_of c (tx "Definition") o = value_of c' (tx "Definition") o) /\ defaults c = defaults c' /\
  value_of c (tx "KNOWN/Definition") (tx "x") = None /\ value_of c' (tx "KNOWN/Definition") (tx "x") = None /\ value_of c (tx "Definition") (tx "x") = Some (tx "section") /\
  get_ex c (tx "Definition") (tx "known/x") false [] = Val (tx "section") /\ get_ex c' (tx "Definition") (tx "known/x") false [] = Val (tx "default").
Proof.
  exists (conf [("x", "default")] [("Definition", [("x", "section"); ("a", "new")])]),
    (conf [("x", "default")] [("Definition", [("x", "section"); ("a", "new")]); ("KNOWN/Definition", [("a", "old")])]).
  split; [reflexivity|]. repeat split; vm_compute; reflexivity.
Qed.
(** C104, what fails: known/opt is what the option was before, as %(known/opt)s is. What was known is read in a scope of overwritten options
    only: if it refers to another option of its section, it is an error. *)
Definition refers : world := world_of
  [("/f/x.conf", ini [] [] [("Definition", [("prefix", "sshd"); ("failregex", "^%(prefix)s")])]);
   ("/f/x.local", ini [] [] [("Definition", [("failregex", "%(known/failregex)s or mine")])])].
Theorem C104_scope_refuted : exists w ca c q, read_files 9 w false [] empty [tx "/f/x.conf"] = Some (ca, c, q) /\
  get c (tx "Definition") (tx "failregex") false [] = Val (tx "^sshd or mine") /\
  get_ex c (tx "Definition") (tx "known/failregex") false [] = Err (Missing (tx "prefix")).
Proof. exists refers. do 3 eexists. split; [vm_compute; reflexivity|]. split; vm_compute; reflexivity. Qed.

Print Assumptions C102_value.
Print Assumptions C102_names.
Print Assumptions C102_meaning.
Print Assumptions C102_errors.
Print Assumptions C102_raw.
Print Assumptions C102_own_section.
Print Assumptions C102_module_refuted.
Print Assumptions C103_reference.
Print Assumptions C103_known.
Print Assumptions C103_chain_refuted.
Print Assumptions C103_case_refuted.
Print Assumptions C103_hidden_refuted.
Print Assumptions C104_named.
Print Assumptions C104_plain.
Print Assumptions C104_default_refuted.
Print Assumptions C104_scope_refuted.
