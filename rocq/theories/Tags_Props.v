(** C35 commands with foreign values, C36 escaping, C37 recursive definitions. *)
From Verif Require Import Base Text Tags_Model Tags_Spec Tags_Proofs Tags_Proofs2 Tags_Proofs3 Tags_Proofs4.
From Coq Require Import ZifyBool ZifyNat.
Local Ltac calc := repeat match goal with |- _ /\ _ => split; [vm_compute; reflexivity|] end; vm_compute; reflexivity.

(** ** C35 *)
Lemma vars_stat_chars vars : forall i, 0 <= i -> Forall (fun kv => namelike (fst kv)) vars ->
  forall c, In c (vars_stat i vars) -> identb c = true \/ c = "="%char \/ c = "$"%char \/ c = sp.
Proof.
  induction vars as [|[k v] vars IH]; intros i Hi F c I; [destruct I|]. inversion F as [|? ? F1 F2]; subst. cbn [fst] in F1.
  cbn [vars_stat] in I. rewrite !in_app_iff in I. destruct I as [I|[I|[I|[I|I]]]].
  - left. now apply F1.
  - cbn in I. destruct I as [<-|[<-|[]]]; auto.
  - left. apply show_chars in I; [|lia|lia]. destruct I as (d & Hd & ->).
    assert (X : d = 0 \/ d = 1 \/ d = 2 \/ d = 3 \/ d = 4 \/ d = 5 \/ d = 6 \/ d = 7 \/ d = 8 \/ d = 9) by lia.
    repeat (destruct X as [->|X]; [reflexivity|]). subst. reflexivity.
  - destruct I as [<-|[]]. auto.
  - apply IH in I; auto; lia.
Qed.
Lemma shown_value n v : value_shown n v (shown n v).
Proof.
  unfold value_shown, shown. destruct (existsb special v) eqn:E; [right|left]; split; auto; [now apply special_harmful|now apply special_harmless].
Qed.
Lemma shown1_all add info ps : Forall2 (tag_shown info add) ps (map (shown1 add info) ps).
Proof.
  induction ps as [|[c|n] ps IH]; cbn [map]; constructor; auto; cbn [tag_shown shown1]; [reflexivity|].
  destruct (info n); [apply shown_value|reflexivity].
Qed.
Lemma shown2_all tick ps : Forall2 (capture_shown tick) ps (map (shown2 tick) ps).
Proof.
  induction ps as [|[c|n] ps IH]; cbn [map]; constructor; auto; cbn [capture_shown shown2]; [reflexivity|].
  change (map_tag2opt n) with (capture n). destruct (tick (capture n)); [apply shown_value|reflexivity].
Qed.
Lemma uses_needed info tick ps qs x v : uses1 info ps x v \/ uses2 tick qs x v <-> needed info tick ps qs x v.
Proof. reflexivity. Qed.
Lemma vars_facts info tick ps qs : let vars := fold_left (keep2 tick) qs (fold_left (keep1 info) ps []) in
  dwf vars /\ (forall x v, dget x vars = Some v -> needed info tick ps qs x v) /\ (forall x v, needed info tick ps qs x v -> In x (dkeys vars)) /\
  Forall (fun kv => namelike (fst kv)) vars.
Proof.
  intros vars. assert (W : dwf vars) by (apply keep2_wf, keep1_wf, dwf_nil).
  assert (G : forall x v, dget x vars = Some v -> needed info tick ps qs x v).
  { intros x v H. apply uses_needed. apply keep2_get in H. destruct H as [H|H]; [|now right]. apply keep1_get in H. destruct H as [H|H]; [discriminate|now left]. }
  split; [exact W|]. split; [exact G|]. split.
  - intros x v [H|H]; [apply keep2_mono; eapply keep1_has|eapply keep2_has]; exact H.
  - rewrite Forall_forall. intros [x v] I. apply (In_dget _ _ _ W) in I. apply G in I.
    destruct I as [(n & _ & _ & _ & ->)|(n & _ & _ & _ & ->)]; apply variable_namelike.
Qed.

(** The script is the template with each tag replaced by its value, if the value has no shell character, and
    by a variable otherwise; the tags of the captures are replaced the same way after that.  Values with
    shell characters are in the arguments only: the line that sets the variables has identifiers, [=], [$]
    and blanks only. *)
Theorem C35_script fixed cmd value tick :
  exists ps ts qs us,
    parsed [lt] tag_name cmd ps /\ Forall2 (tag_shown value fixed) ps ts /\
    parsed (tx "<F-") cap_name (concat ts) qs /\ Forall2 (capture_shown tick) qs us /\
    match replace_dynamic_tags fixed cmd value tick with
    | Script s => s = concat us /\ (forall x v, ~ needed value tick ps qs x v)
    | WithArgs s args => exists line vars,
        s = line ++ nl :: concat us /\ args = map snd vars /\ vars <> [] /\ NoDup (map fst vars) /\
        (forall c, In c line -> identb c = true \/ c = "="%char \/ c = "$"%char \/ c = sp) /\
        (forall x v, In (x, v) vars -> needed value tick ps qs x v) /\
        (forall x v, needed value tick ps qs x v -> In x (map fst vars)) /\
        ((length args <= 10)%nat -> shell_vars s args = vars)
    end.
Proof.
  destruct (dyn_eq fixed value tick cmd) as (ps & qs & Hp & Hq & E). exists ps, (map (shown1 fixed value) ps), qs, (map (shown2 tick) qs).
  split; [exact Hp|]. split; [apply shown1_all|]. split; [exact Hq|]. split; [apply shown2_all|]. rewrite E. cbv zeta.
  destruct (vars_facts value tick ps qs) as (W & G & K & N). cbv zeta in *.
  set (vars := fold_left (keep2 tick) qs (fold_left (keep1 value) ps [])) in *. clearbody vars.
  assert (M : match vars with [] => Script (concat (map (shown2 tick) qs)) | _ :: _ => build_shell_cmd (concat (map (shown2 tick) qs)) vars end
            = match vars with [] => Script (concat (map (shown2 tick) qs)) | _ :: _ => WithArgs (vars_stat 0 vars ++ nl :: concat (map (shown2 tick) qs)) (map snd vars) end)
    by (destruct vars; reflexivity).
  rewrite M. destruct vars as [|kv vars0] eqn:Ev.
  - split; [reflexivity|]. intros x v H. exact (K x v H).
  - rewrite <- Ev in *. exists (vars_stat 0 vars), vars. split; [reflexivity|]. split; [reflexivity|]. split; [rewrite Ev; discriminate|]. split; [exact W|].
    split; [apply vars_stat_chars; [lia|exact N]|]. split; [|split; [exact K|]].
    + intros x v I. apply G. now apply In_dget.
    + intros L. rewrite map_length in L. now apply shell_vars_ok.
Qed.

(** No value brings a shell character into the script: the sequence of those characters (apart from [$] and
    newline) in the script is a part of that in the template. *)
Theorem C35_no_new_characters fq sh cmd value tick : harmless fq -> harmless sh ->
  let s := match replace_dynamic_tags (add_repl fq sh) cmd value tick with Script s => s | WithArgs s _ => s end in
  subseq (filter bad s) (filter bad cmd).
Proof.
  intros Hf Hh. cbv zeta.
  assert (B1 : forall c, bad c = true -> special c = true).
  { intros c H. unfold bad in H. rewrite !andb_true_iff in H. destruct H as ((H & _) & _). apply inb_In in H. now apply special_meta. }
  assert (Hb : forall v, harmless v -> filter bad v = []).
  { intros v H. apply filter_none. intros x I. destruct (bad x) eqn:E; [|reflexivity]. apply B1, special_meta in E. now destruct (H x I). }
  destruct (dyn_eq (add_repl fq sh) value tick cmd) as (ps & qs & Hp & Hq & E). rewrite E. cbv zeta.
  destruct (vars_facts value tick ps qs) as (_ & _ & _ & N). cbv zeta in N.
  assert (S : subseq (filter bad (concat (map (shown2 tick) qs))) (filter bad cmd)).
  { eapply subseq_trans; [apply (specials2 bad B1 eq_refl tick _ _ Hq)|]. apply (specials1 bad B1 eq_refl); [|exact Hp].
    intros n v. unfold add_repl. destruct (eqb n (tx "br")); [intros [= <-]; reflexivity|]. destruct (eqb n (tx "sp")); [intros [= <-]; reflexivity|].
    destruct (eqb n (tx "fq-hostname")); [intros [= <-]; auto|]. destruct (eqb n (tx "sh-hostname")); [intros [= <-]; auto|discriminate]. }
  set (vars := fold_left (keep2 tick) qs (fold_left (keep1 value) ps [])) in *. clearbody vars.
  destruct vars as [|kv vars0] eqn:Ev; [exact S|]. rewrite <- Ev in *. unfold build_shell_cmd.
  replace (vars_stat 0 vars ++ ascii_of_nat 10 :: concat (map (shown2 tick) qs)) with ((vars_stat 0 vars ++ [ascii_of_nat 10]) ++ concat (map (shown2 tick) qs))
    by (rewrite <- app_assoc; reflexivity).
  rewrite filter_app2. rewrite (filter_none bad (vars_stat 0 vars ++ [ascii_of_nat 10])); [exact S|].
  intros x I. apply in_app_or in I. destruct I as [I|[<-|[]]]; [|reflexivity].
  apply vars_stat_chars in I; [|lia|exact N]. destruct I as [I | [-> | [-> | ->]]]; try reflexivity.
  destruct (bad x) eqn:Eb; [|reflexivity]. apply B1 in Eb. rewrite (word_no_bad x I) in Eb. discriminate.
Qed.

(** What the command sees: when the shell has set the variables and puts them into the other lines, the
    result is the template with each tag replaced by its value.  The template has no [$] and no [<] of its own,
    its tags stand apart from identifier characters, and there are at most ten variables, with different names. *)
Theorem C35_meaning fixed cmd value tick ps :
  parsed [lt] tag_name cmd ps ->
  (forall c, In (Lit c) ps -> c <> "$"%char /\ c <> lt) -> (forall n, In (Tag n) ps -> value n <> None) -> apart ps ->
  (forall n m, In (Tag n) ps -> In (Tag m) ps -> variable n = variable m -> n = m) ->
  match replace_dynamic_tags fixed cmd value tick with
  | Script s => shell_text (length s) [] s = concat (map (meant value) ps)
  | WithArgs s args => (length args <= 10)%nat -> shell_text (length s) (shell_vars s args) (other_lines s) = concat (map (meant value) ps)
  end.
Proof.
  intros Hp Hl Ht Ha Hv. destruct (dyn_eq fixed value tick cmd) as (ps' & qs & Hp' & Hq & E).
  assert (ps' = ps) by (apply (parsed_fun [lt] tag_name cmd); auto; [apply tag_no_gt|discriminate]). subst ps'.
  apply no_lt_parsed in Hq; [|apply shown1_no_lt; [intros c I; now apply Hl|exact Ht]]. subst qs.
  set (s1 := concat (map (shown1 fixed value) ps)) in *.
  assert (A : fold_left (keep2 tick) (map Lit s1) (fold_left (keep1 value) ps []) = fold_left (keep1 value) ps []).
  { generalize (fold_left (keep1 value) ps []). clear. induction s1; intros v; [reflexivity|exact (IHs1 v)]. }
  assert (B : concat (map (shown2 tick) (map Lit s1)) = s1) by (clear; induction s1 as [|c s IH]; [reflexivity|cbn; now rewrite IH]).
  cbv zeta in E. rewrite A, B in E. rewrite E. clear A B E.
  set (vars := fold_left (keep1 value) ps []) in *.
  assert (W : dwf vars) by apply keep1_wf, dwf_nil.
  assert (V : forall n v, In (Tag n) ps -> value n = Some v -> ~ harmless v -> dget (variable n) vars = Some v).
  { intros n v I Hn Hh. destruct (dget_ex (variable n) vars) as (w & Hw); [apply (keep1_has value ps [] _ v); exists n; auto|].
    pose proof Hw as Hw'. apply keep1_get in Hw'. destruct Hw' as [?|(m & Im & Hm & _ & Em)]; [discriminate|].
    apply Hv in Em; auto. subst m. rewrite Hw. congruence. }
  assert (N : Forall (fun kv => namelike (fst kv)) vars).
  { rewrite Forall_forall. intros [x v] I. apply (In_dget _ _ _ W) in I. apply keep1_get in I.
    destruct I as [?|(n & _ & _ & _ & ->)]; [discriminate|apply variable_namelike]. }
  clearbody vars. destruct vars as [|kv vars0] eqn:Ev.
  - apply shell_meant; auto. intros c I; now apply Hl.
  - rewrite <- Ev in *. unfold build_shell_cmd. intros L. rewrite map_length in L.
    change (ascii_of_nat 10) with nl.
    assert (L10 : 0 + Z.of_nat (length vars) <= 10) by lia.
    rewrite shell_vars_ok by auto. rewrite other_lines_app by (apply vars_stat_nl; [lia|exact L10|exact N]).
    apply shell_meant; auto.
    + intros c I; now apply Hl.
    + fold s1. rewrite app_length. cbn [length]. lia.
Qed.

(** *** an example and what does not hold *)
Definition demo_value (n : text) : option text :=
  if eqb n (tx "ip") then Some (tx "192.0.2.1") else if eqb n (tx "user") then Some (tx "x; rm -rf / #<ip>") else None.
Definition none_ (n : text) : option text := None.
Example C35_demo :
  replace_dynamic_tags (add_repl [] []) (tx "ban <ip> '<user>' <F-ID>") demo_value (fun n => if eqb n (tx "fid") then Some (tx "$(x)") else None)
  = WithArgs (tx "f2bV_user=$0 f2bV_F_fid=$1 " ++ nl :: tx "ban 192.0.2.1 '$f2bV_user' $f2bV_F_fid") [tx "x; rm -rf / #<ip>"; tx "$(x)"].
Proof. vm_compute. reflexivity. Qed.
Example C35_demo_hypotheses :
  let ps := pieces [TChar "b"; TChar sp; TTag (tx "ip"); TChar sp; TTag (tx "user")]%char in
  parsed [lt] tag_name (tx "b <ip> <user>") ps /\ (forall c, In (Lit c) ps -> c <> "$"%char /\ c <> lt) /\ (forall n, In (Tag n) ps -> demo_value n <> None) /\ apart ps /\
  (forall n m, In (Tag n) ps -> In (Tag m) ps -> variable n = variable m -> n = m).
Proof.
  cbv zeta. split; [|split; [|split; [|split]]].
  - apply (pieces_parsed [TChar "b"; TChar sp; TTag (tx "ip"); TChar sp; TTag (tx "user")]%char).
    repeat match goal with |- Forall _ _ => constructor end; cbn; try discriminate; (split; [discriminate|]); cbn; repeat split; intros H; intuition discriminate.
  - cbn. intros c H. intuition; try discriminate; match goal with H : Lit _ = Lit _ |- _ => injection H as <-; discriminate end.
  - cbn [pieces flat_map app In]. intros n H.
    repeat (destruct H as [H|H]; [first [discriminate H | injection H as <-; vm_compute; discriminate]|]). destruct H.
  - cbn. repeat split; try exact I; reflexivity.
  - cbn [pieces flat_map app In]. intros n m H H'.
    repeat (destruct H as [H|H]; [first [discriminate H | injection H as <-]|]); try destruct H;
    repeat (destruct H' as [H'|H']; [first [discriminate H' | injection H' as <-]|]); try destruct H'; vm_compute; auto; discriminate.
Qed.

(** two tags may have the same variable: one value is then used for both *)
Theorem C35_collision_refuted : exists value s args,
  replace_dynamic_tags none_ (tx "x <ip-rev> <ip_rev>") value none_ = WithArgs s args /\
  value (tx "ip-rev") = Some (tx "a*") /\ value (tx "ip_rev") = Some (tx "b*") /\
  shell_text (length s) (shell_vars s args) (other_lines s) = tx "x b* b*".
Proof.
  exists (fun n => if eqb n (tx "ip-rev") then Some (tx "a*") else if eqb n (tx "ip_rev") then Some (tx "b*") else None).
  eexists. eexists. split; [vm_compute; reflexivity|]. calc.
Qed.
(** a tag before a letter: another variable is read, the value is lost *)
Theorem C35_glue_refuted : exists value s args,
  replace_dynamic_tags none_ (tx "x <user>s") value none_ = WithArgs s args /\ value (tx "user") = Some (tx "a*") /\
  shell_text (length s) (shell_vars s args) (other_lines s) = tx "x ".
Proof.
  exists (fun n => if eqb n (tx "user") then Some (tx "a*") else None). eexists. eexists. split; [vm_compute; reflexivity|]. calc.
Qed.
(** the eleventh variable gets the second value and a zero *)
Theorem C35_eleven_refuted : exists value s args,
  replace_dynamic_tags none_ (tx "x <a> <b> <c> <d> <e> <f> <g> <h> <i> <j> <k>") value none_ = WithArgs s args /\
  value (tx "k") = Some (tx "k*") /\ value (tx "b") = Some (tx "b*") /\
  dget (tx "f2bV_k") (shell_vars s args) = Some (tx "b*0").
Proof.
  exists (fun n => Some (n ++ tx "*")). eexists. eexists. split; [vm_compute; reflexivity|]. calc.
Qed.
(** a value can choose which capture is used where a template nests tags *)
Theorem C35_nested_refuted : exists value tick, value (tx "x") = Some (tx "USER") /\ tick (tx "user") = Some (tx "root") /\
  replace_dynamic_tags none_ (tx "id <F-<x>>") value tick = Script (tx "id root").
Proof.
  exists (fun n => if eqb n (tx "x") then Some (tx "USER") else None), (fun n => if eqb n (tx "user") then Some (tx "root") else None). calc.
Qed.
(** blanks and leading dashes are no shell characters here: a value can become several words *)
Theorem C35_words_refuted : exists value, value (tx "user") = Some (tx "a -o b") /\
  replace_dynamic_tags none_ (tx "x <user>") value none_ = Script (tx "x a -o b").
Proof. exists (fun n => if eqb n (tx "user") then Some (tx "a -o b") else None). calc. Qed.

(** ** C36 *)
(** nothing is lost: C-like reading of the escapes gives the value back *)
Theorem C36_round_trip v : unescape (escape_tag v) = v.
Proof. apply escape_round. Qed.
(** the shell reads the value back, if it has no newline and no carriage return *)
Theorem C36_shell v : ~ In nl v -> ~ In cr v -> unquote (escape_tag v) = v.
Proof. apply escape_shell. Qed.
(** without a backslash before it there is no shell character; the other characters are there in their order *)
Theorem C36_no_shell_characters v : harmless (bare (escape_tag v)) /\ bare (escape_tag v) = filter (fun c => negb (inb c meta)) v /\ ~ In nl (escape_tag v) /\ ~ In cr (escape_tag v).
Proof.
  rewrite escape_bare. split; [|split; [|split]].
  - intros c I M. apply filter_In in I. destruct I as (_ & I). apply special_meta in M. rewrite M in I. discriminate.
  - reflexivity.
  - intros I. now apply escape_only_letters in I.
  - intros I. now apply escape_only_letters in I.
Qed.
(** a value without shell characters is not changed *)
Theorem C36_plain v : harmless v -> escape_tag v = v.
Proof. apply escape_id. Qed.
Example C36_demo : escape_tag (tx "a;b'c" ++ [nl] ++ tx "\n $(x)") = tx "a\;b\'c\n\\n \$\(x\)".
Proof. vm_compute. reflexivity. Qed.
(** the shell itself reads an escaped newline as the letter n *)
Theorem C36_newline_refuted : exists v, unquote (escape_tag v) <> v /\ v = [nl] /\ unquote (escape_tag v) = tx "n".
Proof. exists [nl]. split; [vm_compute; discriminate|]. calc. Qed.

(** ** C37 *)
(** the substitution always ends, for any definitions *)
Theorem C37_ends cond left extra tags : exists r N, r <> OutOfFuel /\ forall steps, (N <= steps)%nat -> substitute cond left extra steps tags = r.
Proof. apply substitute_ends. Qed.

(** with success, each value is the full expansion of its definition; the tags to be left are as before *)
Theorem C37_full cond left extra tags steps tags' :
  (forall k v, dget k tags = Some v -> regular v) -> (forall k v, dget k extra = Some v -> regular v) ->
  substitute cond left extra steps tags = Ok tags' ->
  map fst tags' = map fst tags /\
  (forall k, In k left -> dget k tags' = dget k tags) /\
  (forall k l, ~ In k left -> Forall tok_ok l -> dget k tags = Some (toks_text l) ->
     exists e, dget k tags' = Some (toks_text e) /\ expands (definition cond left tags extra) l e).
Proof.
  intros R1 R2 H. destruct (substitute_full cond left extra tags R1 R2 _ _ H) as (K & S & L). split; [exact K|]. split; [exact L|].
  intros k l N O Hk. destruct (S k N _ Hk) as (d0 & d & O0 & E & G & X). apply toks_unique in E; auto. subst d0. exists d. auto.
Qed.
(** an expansion is unique, and has no tag with a definition *)
Theorem C37_unique def l e e' : expands def l e -> expands def l e' -> e = e'.
Proof. intros A B. exact (expands_fun def l e A e' B). Qed.
Theorem C37_nothing_left def l e : expands def l e -> forall n, In (TTag n) e -> def n = None.
Proof. apply expands_result. Qed.

(** definitions that refer to each other in a ring are an error *)
Theorem C37_ring cond left extra tags (S : text -> Prop) k :
  (forall k v, dget k tags = Some v -> regular v) -> (forall k v, dget k extra = Some v -> regular v) ->
  (forall n, S n -> exists v d m, definition cond left tags extra n = Some v /\ Forall tok_ok d /\ v = toks_text d /\ In (TTag m) d /\ S m) ->
  S k -> In k (map fst tags) -> definition cond left tags extra k = dget k tags ->
  exists N, forall steps, (N <= steps)%nat -> substitute cond left extra steps tags = ValueError.
Proof.
  intros R1 R2 HS Sk Ik Dk. destruct (C37_ends cond left extra tags) as (r & N & Hr & H).
  destruct r as [tags'| |]; [exfalso|exists N; exact H|congruence].
  specialize (H N (le_n _)). destruct (C37_full _ _ _ _ _ _ R1 R2 H) as (_ & _ & F).
  destruct (HS k Sk) as (v & d & m & D & O & -> & Im & Sm). rewrite Dk in D.
  assert (Nk : ~ In k left). { intros I. rewrite <- Dk in D. unfold definition in D. rewrite (proj2 (inb_In _ _) I) in D. discriminate. }
  destruct (F k d Nk O D) as (e & _ & X). exact (expands_ring _ S HS _ _ X m Sm Im).
Qed.

(** a query: with success the full expansion with the definitions, and the fixed replacements where there are none *)
Theorem C37_query cond fixed info steps q v :
  (forall k n, In k (map fst info) -> In n (map tx ["matches"; "ipmatches"; "ipjailmatches"]%string) -> k <> n /\ k <> n ++ "?"%char :: cond) ->
  (forall k v, dget k info = Some v -> regular v) -> (forall n v, fixed n = Some v -> ~ In lt v) ->
  Forall tok_ok q -> replace_tag cond fixed steps (toks_text q) info = Ok v ->
  exists e, v = toks_text e /\ expands (fun n => match definition cond [] info [] n with Some v => Some v | None => fixed n end) q e.
Proof.
  intros N R A Hq H. unfold replace_tag in H. destruct (has "<"%char (toks_text q)) eqn:E; cbn [negb] in H.
  - destruct (substitute cond escaped_tags [] steps info) as [info'| |] eqn:Es; try discriminate.
    destruct (replace_loop_full cond fixed info info' N R A steps Es q Hq) as (d & L & X). rewrite L in H. injection H as <-. exists d. auto.
  - injection H as <-. exists q. split; [reflexivity|]. apply expands_final. intros n I. now destruct (no_lt_no_tag _ n E).
Qed.
(** and it is an error only if the definitions are *)
Theorem C37_query_ok cond fixed info steps info' q :
  (forall k n, In k (map fst info) -> In n (map tx ["matches"; "ipmatches"; "ipjailmatches"]%string) -> k <> n /\ k <> n ++ "?"%char :: cond) ->
  (forall k v, dget k info = Some v -> regular v) -> (forall n v, fixed n = Some v -> ~ In lt v) ->
  Forall tok_ok q -> substitute cond (map tx ["matches"; "ipmatches"; "ipjailmatches"]%string) [] steps info = Ok info' -> exists v, replace_tag cond fixed steps (toks_text q) info = Ok v.
Proof.
  intros N R A Hq H. unfold replace_tag. destruct (has "<"%char (toks_text q)); cbn [negb]; [|eauto]. unfold escaped_tags. rewrite H.
  destruct (replace_loop_full cond fixed info info' N R A steps H q Hq) as (d & L & X). eauto.
Qed.

(** *** examples *)
Definition defs1 : dict text text := [(tx "a", tx "3"); (tx "b", tx "<a>_<c>"); (tx "c", tx "<a>-<HOST> < f"); (tx "c?family=inet6", tx "six")].
Example C37_demo : substitute [] [] [] 10 defs1 = Ok [(tx "a", tx "3"); (tx "b", tx "3_3-<HOST> < f"); (tx "c", tx "3-<HOST> < f"); (tx "c?family=inet6", tx "six")]
  /\ substitute (tx "family=inet6") [] [] 10 defs1 = Ok [(tx "a", tx "3"); (tx "b", tx "3_six"); (tx "c", tx "3-<HOST> < f"); (tx "c?family=inet6", tx "six")]
  /\ replace_tag [] (add_repl [] []) 10 (tx "x <b><br>") defs1 = Ok (tx "x 3_3-<HOST> < f" ++ [nl]).
Proof. calc. Qed.
Example C37_demo_regular : forall k v, dget k defs1 = Some v -> regular v.
Proof.
  assert (T : forall c, tag_name [c] \/ c = sp \/ c = lt \/ c = gt).
  { intros c. destruct (ascii_dec c sp); [auto|]. destruct (ascii_dec c lt); [auto|]. destruct (ascii_dec c gt); [auto|].
    left. split; [discriminate|]. cbn. intuition congruence. }
  intros k v H. apply dget_In in H. cbn in H. destruct H as [[= <- <-]|[[= <- <-]|[[= <- <-]|[[= <- <-]|[]]]]].
  - exists (map TChar (tx "3")). split; [repeat constructor; discriminate|reflexivity].
  - exists [TTag (tx "a"); TChar "_"; TTag (tx "c")]%char. split; [|reflexivity].
    constructor; [|constructor; [discriminate|constructor; [|constructor]]]; (split; [discriminate|]); cbn; intuition discriminate.
  - exists ([TTag (tx "a"); TChar "-"; TTag (tx "HOST"); TChar sp; TLess; TChar "f"])%char. split; [|reflexivity].
    constructor; [|constructor; [discriminate|constructor; [|constructor; [discriminate|constructor; [exact I|constructor; [discriminate|constructor]]]]]];
    (split; [discriminate|]); cbn; intuition discriminate.
  - exists (map TChar (tx "six")). split; [repeat constructor; discriminate|reflexivity].
Qed.
Example C37_demo_ring : substitute [] [] [] 100 [(tx "a", tx "x<b>"); (tx "b", tx "<c>y"); (tx "c", tx "<a>")] = ValueError
  /\ substitute [] [] [] 100 [(tx "a", tx "x<a>")] = ValueError.
Proof. calc. Qed.
(** tags may be put together from others *)
Example C37_demo_composite : substitute [] [] [] 100 [(tx "v4", tx "iptables"); (tx "fam", tx "v4"); (tx "cmd", tx "<<fam>> -n")]
  = Ok [(tx "v4", tx "iptables"); (tx "fam", tx "v4"); (tx "cmd", tx "iptables -n")].
Proof. calc. Qed.
(** one tag used in many others is taken for a ring *)
Definition many (n : nat) : dict text text :=
  (tx "x", concat (map (fun i => bracket ("a"%char :: dec (Z.of_nat i))) (seq 0 n))) :: (tx "b", tx "z") :: map (fun i => ("a"%char :: dec (Z.of_nat i), tx "<b>")) (seq 0 n).
Theorem C37_many_refuted : substitute [] [] [] 200 (many 27) = ValueError /\
  (forall k v, dget k (many 27) = Some v -> k = tx "x" \/ v = tx "<b>" \/ v = tx "z") /\
  match substitute [] [] [] 200 (many 26) with Ok t => dget (tx "x") t = Some (tx "zzzzzzzzzzzzzzzzzzzzzzzzzz") | _ => False end.
Proof.
  split; [vm_compute; reflexivity|]. split; [|vm_compute; reflexivity].
  intros k v H. apply dget_In in H. destruct H as [[= <- <-]|[[= <- <-]|H]]; auto. apply in_map_iff in H. destruct H as (i & [= <- <-] & _). auto.
Qed.

Print Assumptions C35_script.
Print Assumptions C35_no_new_characters.
Print Assumptions C35_meaning.
Print Assumptions C35_demo.
Print Assumptions C35_demo_hypotheses.
Print Assumptions C35_collision_refuted.
Print Assumptions C35_glue_refuted.
Print Assumptions C35_eleven_refuted.
Print Assumptions C35_nested_refuted.
Print Assumptions C35_words_refuted.
Print Assumptions C36_round_trip.
Print Assumptions C36_shell.
Print Assumptions C36_no_shell_characters.
Print Assumptions C36_plain.
Print Assumptions C36_demo.
Print Assumptions C36_newline_refuted.
Print Assumptions C37_ends.
Print Assumptions C37_full.
Print Assumptions C37_unique.
Print Assumptions C37_nothing_left.
Print Assumptions C37_ring.
Print Assumptions C37_query.
Print Assumptions C37_query_ok.
Print Assumptions C37_demo.
Print Assumptions C37_demo_regular.
Print Assumptions C37_demo_ring.
Print Assumptions C37_demo_composite.
Print Assumptions C37_many_refuted.
