(** C119-C121: what the words of the command line mean. *)
From Verif Require Import Base Text Cmdline_Model Cmdline_Spec Cmdline_Proofs.
Local Open Scope string_scope. Local Open Scope list_scope. Local Open Scope Z_scope.

(** * Example *)
Definition sec0 (t : text) : option Z := if eqb t (tx "1m") then Some 60 else None.
Definition early0 (d : text) : option (dict text text) :=
  if eqb d (tx "/etc/fail2ban") then Some (map (fun p => (tx (fst p), tx (snd p))) [("socket", "/run/f.sock"); ("pidfile", "/run/f.pid"); ("loglevel", "INFO"); ("logtarget", "/var/f.log"); ("syslogsocket", "auto")]) else None.
Definition level0 (l : text) : bool := inb l (map tx ["INFO"; "ERROR"]).
Definition argv0 : list text := map tx ["-vs/a.sock"; "--loglev"; "ERROR"; "-vp"; "/b.pid"; "--socket=/c.sock"; "-f"; "set"; "sshd"; "banip"; "-v"; "--"].

Lemma some_inj {A} (a b : A) : Some a = Some b -> a = b.
Proof. congruence. Qed.

(** * C119: words and options *)
(** The words before the command are read as options in the ways of writing them; all words from the first one that is no option, or from the one after [--],
    are the command, whatever they look like.  Other words are an error. *)
Theorem C119_words argv os a : getopt argv = Some (os, a) <-> exists ws, spelled os ws /\ ((argv = ws ++ a /\ command a) \/ argv = ws ++ tx "--" :: a).
Proof.
  split; [now apply (getopt_inv (length argv))|]. intros (ws & SP & [[-> C]| ->]); rewrite (spelled_word os ws) by exact SP.
  - rewrite getopt_command by exact C. now rewrite app_nil_r.
  - change (getopt (tx "--" :: a)) with (Some (@nil opt, a)). cbv iota beta. now rewrite app_nil_r.
Qed.
(** The command is passed on as it is. *)
Theorem C119_command sec early lok rd argv c a : init sec early lok rd argv = GoesOn c a -> exists ws, (argv = ws ++ a /\ command a) \/ argv = ws ++ tx "--" :: a.
Proof.
  unfold init. destruct (getopt argv) as [[os a']|] eqn:G; [|discriminate]. intros H. assert (E : a' = a).
  { destruct (handle sec os conf0) as [c1| |]; try discriminate. destruct (complete early c1) as [c2|]; [|discriminate]. destruct (dget (tx "loglevel") (strs c2)), (dget (tx "logtarget") (strs c2)); try discriminate.
    destruct (negb (lok t)); [discriminate|]. destruct (negb (dump c2 =? 0) && negb (test c2)); [discriminate|]. destruct (test c2); [|congruence]. destruct a' as [|x a']; [discriminate|]. destruct (rd c2); [congruence|discriminate]. }
  subst a'. apply C119_words in G. destruct G as (ws & _ & G). now exists ws.
Qed.
(** Words that cannot be read this way end the program, and nothing is done. *)
Theorem C119_wrong sec early lok rd argv : (forall os ws a, spelled os ws -> argv <> ws ++ tx "--" :: a /\ (command a -> argv <> ws ++ a)) -> init sec early lok rd argv = Ends false.
Proof.
  intros N. unfold init. destruct (getopt argv) as [[os a]|] eqn:G; [|reflexivity]. apply C119_words in G. destruct G as (ws & SP & [[E C]|E]); destruct (N os ws a SP) as [N1 N2]; [now destruct (N2 C)|contradiction].
Qed.
Theorem C119_demo : getopt argv0 = Some (map (fun p => (tx (fst p), tx (snd p))) [("-v", ""); ("-s", "/a.sock"); ("--loglevel", "ERROR"); ("-v", ""); ("-p", "/b.pid"); ("--socket", "/c.sock"); ("-f", "")], map tx ["set"; "sshd"; "banip"; "-v"; "--"])
  /\ map (fun l => getopt (map tx l)) [["--sock"]; ["-s"]; ["--t"]; ["-z"]; ["--test=1"]; ["--="]] = [None; None; None; None; None; None]
  /\ map (fun l => getopt (map tx l)) [["--"; "-v"]; ["-"; "-v"]; ["--so="; "x"]] = [Some ([], [tx "-v"]); Some ([], [tx "-"; tx "-v"]); Some ([(tx "--socket", [])], [tx "x"])].
Proof. vm_compute. repeat split. Qed.

(** * C120: what options mean *)
Definition found (early : text -> option (dict text text)) (os : list opt) (p : text) (v : option text) : Prop :=
  exists e, early (match last_opt ["-c"; "--conf"] os with Some x => snd x | None => tx "/etc/fail2ban" end) = Some e /\ v = dget p e.
(** When the program goes on to the command, each setting is the one given last on the command line; the five settings it needs of the configuration
    are else those of the configuration in the directory given last, or /etc/fail2ban.  Other settings not given have their defaults. *)
Theorem C120_meaning sec early lok rd argv c a : init sec early lok rd argv = GoesOn c a -> exists os, getopt argv = Some (os, a)
  /\ (forall k ns, In (k, ns) settings -> match last_opt ns os with
       | Some x => dget (tx k) (strs c) = Some (snd x)
       | None => if inb (tx k) config_params then found early os (tx k) (dget (tx k) (strs c)) else dget (tx k) (strs c) = (if eqb (tx k) (tx "conf") then Some (tx "/etc/fail2ban") else None)
       end)
  /\ verbose c = 1 + count "-v" os - count "-q" os
  /\ background c = match last_opt ["-b"; "-f"] os with Some x => eqb (fst x) (tx "-b") | None => true end
  /\ (force c = true <-> given ["-x"] os) /\ (interactive c = true <-> given ["-i"] os) /\ (is_async c = true <-> given ["--async"] os) /\ (test c = true <-> given ["-t"; "--test"] os)
  /\ dump c = match last_opt ["-d"; "--dp"; "--dump-pretty"] os with Some x => if eqb (fst x) (tx "-d") then 1 else 2 | None => 0 end
  /\ match last_opt ["--timeout"] os with Some x => sec (snd x) = Some (timeout c) | None => timeout c = 30 end
  /\ ~ given ending os.
Proof.
  unfold init. destruct (getopt argv) as [[os a']|] eqn:G; [|discriminate]. destruct (handle sec os conf0) as [c1| |] eqn:H; try discriminate. destruct (complete early c1) as [c2|] eqn:C; [|discriminate].
  intros I1. assert (E : a' = a /\ c2 = c).
  { destruct (dget (tx "loglevel") (strs c2)), (dget (tx "logtarget") (strs c2)); try discriminate.
    destruct (negb (lok t)); [discriminate|]. destruct (negb (dump c2 =? 0) && negb (test c2)); [discriminate|]. destruct (test c2); [|injection I1; now split]. destruct a' as [|x a']; [discriminate|]. destruct (rd c2); [injection I1; now split|discriminate]. }
  destruct E as [-> ->]. clear I1. exists os. split; [reflexivity|].
  destruct (handle_effects sec os (getopt_known _ _ _ G) conf0 c1 H) as (B1 & B2 & B3 & B4 & B5 & B6 & B7 & B8 & B9 & B10).
  assert (R : timeout c = timeout c1 /\ verbose c = verbose c1 /\ dump c = dump c1 /\ test c = test c1 /\ force c = force c1 /\ interactive c = interactive c1 /\ background c = background c1 /\ is_async c = is_async c1).
  { unfold complete in C. destruct (forallb _ config_params); [apply some_inj in C; subst; repeat split|]. destruct (early _) as [e|]; [|discriminate]. apply some_inj in C; subst. exact (fill_rest e config_params c1). }
  destruct R as (R1 & R2 & R3 & R4 & R5 & R6 & R7 & R8).
  assert (ON : forall names b, b = match last_opt names os with Some _ => true | None => false end -> (b = true <-> given names os)).
  { intros names b ->. destruct (last_opt names os) as [x|] eqn:L.
    - split; [|reflexivity]. intros _. clear - L. induction os as [|y os IH]; [discriminate|]. cbn [last_opt] in L. destruct (last_opt names os) as [z|] eqn:L2.
      + destruct (IH L) as (u & U1 & U2). exists u. split; [now right|exact U2].
      + destruct (inb (fst y) (map tx names)) eqn:X; [|discriminate]. exists y. split; [now left|now apply inb_In].
    - split; [discriminate|]. intros X. now apply last_none in L. }
  split; [|repeat split].
  - intros k ns I1. pose proof (B1 k ns I1) as K.
    assert (D : dget (tx "conf") (strs c1) = Some (match last_opt ["-c"; "--conf"] os with Some x => snd x | None => tx "/etc/fail2ban" end)).
    { rewrite (B1 "conf" ["-c"; "--conf"] (or_introl eq_refl)). destruct (last_opt ["-c"; "--conf"] os); reflexivity. }
    unfold complete in C. destruct (forallb (fun p => match dget p (strs c1) with Some _ => true | None => false end) config_params) eqn:FB.
    + apply some_inj in C; subst. destruct (last_opt ns os) as [x|]; [exact K|]. destruct (inb (tx k) config_params) eqn:IC.
      * exfalso. rewrite forallb_forall in FB. apply inb_In in IC. specialize (FB _ IC). rewrite K in FB. clear - FB I1 IC. cbn [settings In] in I1.
        repeat (destruct I1 as [I1|I1]; [injection I1 as <- _; first [vm_compute in FB; discriminate FB|apply inb_In in IC; vm_compute in IC; discriminate IC]|]). destruct I1.
      * rewrite K. clear - I1 IC. cbn [settings In] in I1. repeat (destruct I1 as [I1|I1]; [injection I1 as <- _; first [vm_compute; reflexivity|vm_compute in IC; discriminate IC]|]). destruct I1.
    + rewrite D in C. destruct (early _) as [e|] eqn:EA; [|discriminate]. apply some_inj in C; subst. rewrite fill_get, K. destruct (last_opt ns os) as [x|]; [reflexivity|].
      destruct (inb (tx k) config_params) eqn:IC.
      * exists e. split; [exact EA|]. replace (dget (tx k) (strs conf0)) with (@None text); [reflexivity|]. clear - I1 IC. cbn [settings In] in I1. repeat (destruct I1 as [I1|I1]; [injection I1 as <- _; first [vm_compute; reflexivity|vm_compute in IC; discriminate IC]|]). destruct I1.
      * clear - I1 IC. cbn [settings In] in I1. repeat (destruct I1 as [I1|I1]; [injection I1 as <- _; first [vm_compute; reflexivity|vm_compute in IC; discriminate IC]|]). destruct I1.
  - rewrite R2, B2. reflexivity.
  - rewrite R7, B3. destruct (last_opt ["-b"; "-f"] os); reflexivity.
  - apply ON. rewrite R5, B5. reflexivity.
  - apply ON. rewrite R5, B5. reflexivity.
  - apply ON. rewrite R6, B6. reflexivity.
  - apply ON. rewrite R6, B6. reflexivity.
  - apply ON. rewrite R8, B7. reflexivity.
  - apply ON. rewrite R8, B7. reflexivity.
  - apply ON. rewrite R4, B4. reflexivity.
  - apply ON. rewrite R4, B4. reflexivity.
  - rewrite R3, B8. reflexivity.
  - rewrite R1. destruct (last_opt ["--timeout"] os); exact B9.
  - now apply last_none.
Qed.
(** It does go on if the words can be read, nothing else is asked for and the configuration can be read. *)
Theorem C120_goes_on sec early lok rd argv os a : getopt argv = Some (os, a) -> times_good sec os -> ~ given ending os -> ~ given ["-d"; "--dp"; "--dump-pretty"; "-t"; "--test"] os ->
  (forall d, exists e, early d = Some e /\ (exists l, dget (tx "loglevel") e = Some l /\ lok l = true) /\ (exists t, dget (tx "logtarget") e = Some t)) ->
  match last_opt ["--loglevel"] os with Some x => lok (snd x) = true | None => True end -> exists c, init sec early lok rd argv = GoesOn c a.
Proof.
  intros G SE NE ND EA NL. unfold init. rewrite G. pose proof (getopt_known _ _ _ G) as K. destruct (handle_total sec os K SE conf0) as [(c1 & H & _)|[_ X]]; [|contradiction]. rewrite H.
  destruct (handle_effects sec os K conf0 c1 H) as (B1 & _ & _ & B4 & _ & _ & _ & B8 & _).
  assert (T : test c1 = false). { rewrite B4. replace (last_opt ["-t"; "--test"] os) with (@None opt); [reflexivity|]. symmetry. apply last_none. intros (x & I1 & I2). apply ND. exists x. split; [exact I1|]. cbn in *. tauto. }
  assert (D : dump c1 = 0). { rewrite B8. replace (last_opt ["-d"; "--dp"; "--dump-pretty"] os) with (@None opt); [reflexivity|]. symmetry. apply last_none. intros (x & I1 & I2). apply ND. exists x. split; [exact I1|]. cbn in *. tauto. }
  assert (L : match dget (tx "loglevel") (strs c1) with Some v => lok v = true | None => True end).
  { rewrite (B1 "loglevel" ["--loglevel"]) by (cbn; tauto). destruct (last_opt ["--loglevel"] os); [exact NL|vm_compute; trivial]. }
  assert (C : exists c2, complete early c1 = Some c2 /\ test c2 = false /\ dump c2 = 0 /\ (exists l, dget (tx "loglevel") (strs c2) = Some l /\ lok l = true) /\ (exists t, dget (tx "logtarget") (strs c2) = Some t)).
  { unfold complete. destruct (forallb (fun p => match dget p (strs c1) with Some _ => true | None => false end) config_params) eqn:FB.
    - exists c1. repeat split; try assumption; rewrite forallb_forall in FB.
      + assert (I1 : In (tx "loglevel") config_params) by (apply inb_In; vm_compute; reflexivity). specialize (FB _ I1). destruct (dget (tx "loglevel") (strs c1)) as [l|]; [now exists l|discriminate].
      + assert (I1 : In (tx "logtarget") config_params) by (apply inb_In; vm_compute; reflexivity). specialize (FB _ I1). destruct (dget (tx "logtarget") (strs c1)) as [l|]; [now exists l|discriminate].
    - destruct (EA (match dget (tx "conf") (strs c1) with Some d => d | None => [] end)) as (e & -> & (v & V1 & V2) & (u & U1)). exists (fill e config_params c1).
      destruct (fill_rest e config_params c1) as (_ & _ & F3 & F4 & _). split; [reflexivity|]. rewrite F3, F4. split; [exact T|]. split; [exact D|]. rewrite !fill_get.
      replace (inb (tx "loglevel") config_params) with true by (vm_compute; reflexivity). replace (inb (tx "logtarget") config_params) with true by (vm_compute; reflexivity). split.
      + destruct (dget (tx "loglevel") (strs c1)) as [l|]; [now exists l|exists v; now split].
      + destruct (dget (tx "logtarget") (strs c1)) as [l|]; [now exists l|now exists u]. }
  destruct C as (c2 & -> & T2 & D2 & (l & -> & LO) & (t & ->)). rewrite LO, T2, D2. cbn [negb andb Z.eqb]. now exists c2.
Qed.
(** Asking for help, the version or seconds ends the program with success, whatever other options say. *)
Theorem C120_help sec early lok rd argv os a : getopt argv = Some (os, a) -> times_good sec os -> given ending os -> init sec early lok rd argv = Ends true.
Proof.
  intros G SE GE. unfold init. rewrite G. destruct (handle_total sec os (getopt_known _ _ _ G) SE conf0) as [(c1 & _ & X)|[-> _]]; [contradiction|reflexivity].
Qed.
Theorem C120_demo : exists c, init sec0 early0 level0 (fun _ => true) argv0 = GoesOn c (map tx ["set"; "sshd"; "banip"; "-v"; "--"])
  /\ map (fun k => dget (tx k) (strs c)) ["conf"; "socket"; "pidfile"; "loglevel"; "logtarget"; "pname"] = [Some (tx "/etc/fail2ban"); Some (tx "/c.sock"); Some (tx "/b.pid"); Some (tx "ERROR"); Some (tx "/var/f.log"); None]
  /\ verbose c = 3 /\ background c = false /\ init sec0 early0 level0 (fun _ => true) (map tx ["-h"; "start"]) = Ends true /\ init sec0 early0 level0 (fun _ => true) (map tx ["-c"; "/x"; "start"]) = Ends false.
Proof.
  exists (mkC (map (fun p => (tx (fst p), tx (snd p))) [("conf", "/etc/fail2ban"); ("socket", "/c.sock"); ("loglevel", "ERROR"); ("pidfile", "/b.pid"); ("logtarget", "/var/f.log"); ("syslogsocket", "auto")]) 30 3 0 false false false false false).
  vm_compute. repeat split.
Qed.

Theorem C120_demo_goes_on : exists os a, getopt (map tx ["--timeout"; "1m"; "-b"; "ping"]) = Some (os, a) /\ times_good sec0 os /\ ~ given ending os /\ ~ given ["-d"; "--dp"; "--dump-pretty"; "-t"; "--test"] os /\ ~ given ["--loglevel"] os
  /\ exists e, early0 (tx "/etc/fail2ban") = Some e /\ (exists l, dget (tx "loglevel") e = Some l /\ level0 l = true) /\ (exists t, dget (tx "logtarget") e = Some t).
Proof.
  exists [(tx "--timeout", tx "1m"); (tx "-b", [])], [tx "ping"]. split; [vm_compute; reflexivity|]. split; [|repeat split; try (apply last_none; vm_compute; reflexivity)].
  - intros x [<- |[<- |[]]] I1; [vm_compute; discriminate|]. apply inb_In in I1. vm_compute in I1. discriminate.
  - eexists. split; [vm_compute; reflexivity|]. split; [exists (tx "INFO")|exists (tx "/var/f.log")]; vm_compute; repeat split.
Qed.

(** * C121: testing and showing the configuration runs nothing *)
(** With -d and without -t there is no going on to a command. *)
Theorem C121_dump sec early lok rd argv os a : getopt argv = Some (os, a) -> given ["-d"; "--dp"; "--dump-pretty"] os -> ~ given ["-t"; "--test"] os -> exists b, init sec early lok rd argv = Ends b.
Proof.
  intros G D T. destruct (init sec early lok rd argv) as [b| |c a'] eqn:I1; [now exists b| |].
  - exfalso. unfold init in I1. rewrite G in I1. destruct (handle sec os conf0) as [c1| |] eqn:H; try discriminate. destruct (complete early c1) as [c2|] eqn:C; [|discriminate].
    assert (T2 : test c2 = false).
    { destruct (handle_effects sec os (getopt_known _ _ _ G) conf0 c1 H) as (_ & _ & _ & B4 & _). apply last_none in T. rewrite T in B4. unfold complete in C. destruct (forallb _ config_params); [apply some_inj in C; subst; exact B4|]. destruct (early _) as [e|]; [|discriminate]. apply some_inj in C; subst. destruct (fill_rest e config_params c1) as (_ & _ & _ & F4 & _). now rewrite F4. }
    destruct (dget (tx "loglevel") (strs c2)), (dget (tx "logtarget") (strs c2)); try discriminate. destruct (negb (lok t)); [discriminate|]. rewrite T2 in I1. destruct (negb (dump c2 =? 0) && negb false); discriminate.
  - exfalso. destruct (C120_meaning _ _ _ _ _ _ _ I1) as (os' & G' & _ & _ & _ & _ & _ & _ & TT & DD & _). rewrite G in G'. injection G' as <- <-.
    assert (DN : dump c <> 0). { rewrite DD. destruct (last_opt ["-d"; "--dp"; "--dump-pretty"] os) as [x|] eqn:L; [destruct (eqb (fst x) (tx "-d")); discriminate|]. now apply last_none in L. }
    assert (TF : test c = false) by (destruct (test c); [exfalso; now apply T, TT|reflexivity]). clear TT DD D T.
    unfold init in I1. rewrite G in I1. destruct (handle sec os conf0) as [c1| |]; try discriminate. destruct (complete early c1) as [c2|]; [|discriminate]. destruct (dget (tx "loglevel") (strs c2)), (dget (tx "logtarget") (strs c2)); try discriminate.
    destruct (negb (lok t)); [discriminate|]. destruct (negb (dump c2 =? 0) && negb (test c2)) eqn:DT; [discriminate|]. destruct (test c2) eqn:T2; [destruct a as [|? ?]; [discriminate|]; destruct (rd c2); [|discriminate]|]; injection I1 as <-; [congruence|].
    destruct (Z.eqb_spec (dump c2) 0); [contradiction|discriminate].
Qed.
(** With -t the command is run only if there is one and the configuration is good. *)
Theorem C121_test sec early lok rd argv os a c a' : getopt argv = Some (os, a) -> given ["-t"; "--test"] os -> init sec early lok rd argv = GoesOn c a' -> a' <> [] /\ rd c = true.
Proof.
  intros G T I1. destruct (C120_meaning _ _ _ _ _ _ _ I1) as (os' & G' & _ & _ & _ & _ & _ & _ & TT & _). rewrite G in G'. injection G' as <- <-. apply TT in T. clear TT.
  unfold init in I1. rewrite G in I1. destruct (handle sec os conf0) as [c1| |]; try discriminate. destruct (complete early c1) as [c2|]; [|discriminate]. destruct (dget (tx "loglevel") (strs c2)), (dget (tx "logtarget") (strs c2)); try discriminate.
  destruct (negb (lok t)); [discriminate|]. destruct (negb (dump c2 =? 0) && negb (test c2)) eqn:DT; [discriminate|]. destruct (test c2) eqn:T2.
  - destruct a as [|x a]; [discriminate|]. destruct (rd c2) eqn:R; [|discriminate]. injection I1 as <-. split; [discriminate|exact R].
  - injection I1 as <-. congruence.
Qed.
(** With -t and no command the answer is that of the configuration: success means it is good. *)
Theorem C121_answer sec early lok rd argv os b : getopt argv = Some (os, []) -> given ["-t"; "--test"] os -> ~ given ending os -> (forall c, rd c = b) -> init sec early lok rd argv = Ends true -> b = true.
Proof.
  intros G T NE RD I1. unfold init in I1. rewrite G in I1. destruct (handle sec os conf0) as [c1| |] eqn:H; try discriminate.
  - destruct (handle_effects sec os (getopt_known _ _ _ G) conf0 c1 H) as (_ & _ & _ & B4 & _). destruct (complete early c1) as [c2|] eqn:C; [|discriminate].
    assert (T2 : test c2 = true).
    { assert (T1 : test c1 = true). { rewrite B4. destruct (last_opt ["-t"; "--test"] os) eqn:L; [reflexivity|]. now apply last_none in L. }
      unfold complete in C. destruct (forallb _ config_params); [apply some_inj in C; subst; exact T1|]. destruct (early _) as [e|]; [|discriminate]. apply some_inj in C; subst. destruct (fill_rest e config_params c1) as (_ & _ & _ & F4 & _). now rewrite F4. }
    destruct (dget (tx "loglevel") (strs c2)), (dget (tx "logtarget") (strs c2)); try discriminate. destruct (negb (lok t)); [discriminate|]. rewrite T2, RD in I1. destruct (dump c2 =? 0); cbn in I1; now injection I1.
  - exfalso. clear I1 RD T. revert H. pose proof (getopt_known _ _ _ G) as K. clear G. generalize conf0. induction os as [|x os IH]; intros c0; [discriminate|]. inversion_clear K as [|? ? K1 K2]. rewrite handle_cons.
    destruct (inb (fst x) (map tx ending)) eqn:E; [exfalso; apply NE; exists x; split; [now left|now apply inb_In]|]. destruct (one_other sec x c0 K1 E) as [(c' & ->)|(-> & _)]; [|discriminate].
    apply IH; [|exact K2]. intros (z & Z1 & Z2). apply NE. exists z. split; [now right|exact Z2].
Qed.
(** A level that is not known is refused before anything is run. *)
Theorem C121_level sec early lok rd argv c a : init sec early lok rd argv = GoesOn c a -> exists l, dget (tx "loglevel") (strs c) = Some l /\ lok l = true.
Proof.
  unfold init. destruct (getopt argv) as [[os a']|]; [|discriminate]. destruct (handle sec os conf0) as [c1| |]; try discriminate. destruct (complete early c1) as [c2|]; [|discriminate].
  destruct (dget (tx "loglevel") (strs c2)) as [l|] eqn:L; [|discriminate]. destruct (dget (tx "logtarget") (strs c2)); [|discriminate]. destruct (lok l) eqn:LO; [|discriminate]. cbn [negb].
  intros H. exists l. split; [|exact LO]. destruct (negb (dump c2 =? 0) && negb (test c2)); [discriminate|]. destruct (test c2); [|injection H as <- _; exact L]. destruct a' as [|x a']; [discriminate|]. destruct (rd c2); [|discriminate]. injection H as <- _. exact L.
Qed.
Theorem C121_demo : map (init sec0 early0 level0 (fun _ => true)) [[tx "-d"; tx "start"]; [tx "-t"]; [tx "--loglevel=loud"; tx "start"]] = [Ends true; Ends true; Ends false]
  /\ map (init sec0 early0 level0 (fun _ => false)) [[tx "-d"; tx "start"]; [tx "-t"]; [tx "-t"; tx "start"]] = [Ends false; Ends false; Raises]
  /\ exists c, init sec0 early0 level0 (fun _ => true) [tx "-t"; tx "start"] = GoesOn c [tx "start"].
Proof.
  split; [vm_compute; reflexivity|]. split; [vm_compute; reflexivity|].
  exists (mkC (map (fun p => (tx (fst p), tx (snd p))) [("conf", "/etc/fail2ban"); ("socket", "/run/f.sock"); ("pidfile", "/run/f.pid"); ("logtarget", "/var/f.log"); ("loglevel", "INFO"); ("syslogsocket", "auto")]) 30 1 0 true false false true false).
  vm_compute. reflexivity.
Qed.

Print Assumptions C119_words.
Print Assumptions C119_command.
Print Assumptions C119_wrong.
Print Assumptions C119_demo.
Print Assumptions C120_meaning.
Print Assumptions C120_goes_on.
Print Assumptions C120_help.
Print Assumptions C120_demo.
Print Assumptions C120_demo_goes_on.
Print Assumptions C121_dump.
Print Assumptions C121_test.
Print Assumptions C121_answer.
Print Assumptions C121_level.
Print Assumptions C121_demo.
