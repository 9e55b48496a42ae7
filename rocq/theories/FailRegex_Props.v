(** C80-C83: tags, flags and named groups of a failregex. *)
From Coq Require Import Sorted ZifyBool ZifyNat.
From Verif Require Import Base Text Backtrack Tags_Model FailRegex_Model FailRegex_Spec FailRegex_Proofs FailRegex_Proofs2 FailRegex_Proofs3.
From Verif Require Import IPAddr_Model Lines_Model Session_Model.
Local Open Scope string_scope.
Local Open Scope list_scope.
Local Open Scope Z_scope.

(** ** C80 *)
(** Whatever plain text, tags and groups a failregex is made of, the expression used has each of them
    replaced by what it stands for, in its place, and nothing else changed. *)
Theorem C80_tags : forall use_dns p, proper [] p -> resolve use_dns (written p) = meaning use_dns 0 p.
Proof. exact resolve_pattern. Qed.

(** Text without tags is used as it is written. *)
Theorem C80_plain : forall use_dns t, plain t -> resolve use_dns t = t.
Proof.
  intros d t P. pose proof (C80_tags d (PText t PEnd)) as H. cbn [written meaning proper] in H. rewrite !app_nil_r in H. now apply H.
Qed.

Lemma plain_free t : ~ In "<"%char t -> plain t.
Proof. intros H a b ->. destruct H. apply in_elt. Qed.
Lemma plain_pid : plain (tx "a (?P<pid>\d+) ").
Proof.
  intros a b E. exists (tx "pid"), ">"%char, (tx "\d+) ").
  assert (Eb : b = tx "pid>\d+) ").
  { change (tx "a (?P<pid>\d+) ") with (list_ascii_of_string "a (?P<pid>\d+) ") in E. cbn [list_ascii_of_string] in E.
    do 15 (destruct a as [|? a]; cbn [app] in E; [first [discriminate E|injection E as E; rewrite <- E; reflexivity]|injection E as <- E]). destruct a; discriminate E. }
  split; [rewrite Eb; reflexivity|]. split; [|split; [exact gt_not_in_tag|]].
  - apply Forall_forall. intros c I. apply tag_char_in. left. cbn in I. repeat (destruct I as [<- | I]; [reflexivity|]). destruct I.
  - intros _ [H|[H|[H|(m & _ & [H|H])]]]; try discriminate H. vm_compute in H. congruence.
Qed.
Example C80_demo :
  let p := PText (tx "a (?P<pid>\d+) ") (PGroup (tx "ID") (PText (tx "[") (PStd (tx "ADDR") (PSkip (PText (tx "]") PEnd)))) (PSkip (PHost (PLoose (tx "USER") PEnd)))) in
  proper [] p
  /\ written p = tx "a (?P<pid>\d+) <F-ID>[<ADDR><SKIPLINES>]</F-ID><SKIPLINES><HOST></F-USER>"
  /\ meaning (tx "no") 0 p = tx "a (?P<pid>\d+) (?P<fid>[" ++ address ++ tx "\n(?P<skiplines0>(?:(?:.*\n)*?))])\n(?P<skiplines1>(?:(?:.*\n)*?))" ++ address ++ tx "</F-USER>"
  /\ host (tx "no") = address /\ host (tx "yes") = either address dns_group.
Proof.
  cbn zeta. split; [|split; [|split; [|split]]]; try (vm_compute; reflexivity).
  assert (N : forall n, n <> [] -> forallb name_char n = true -> name n) by (intros n H F; split; [exact H|now apply forallb_name]).
  cbn [proper opened app]. split; [exact plain_pid|]. split; [apply N; [discriminate|reflexivity]|].
  split; [|split; [apply N; [discriminate|reflexivity]|split; [intros [H|[]]; discriminate H|exact I]]].
  split; [apply plain_free; intros [H|[]]; discriminate H|]. split; [vm_compute; discriminate|]. split; [|exact I].
  apply plain_free; intros [H|[]]; discriminate H.
Qed.

(** A closing tag that closes nothing is not left as it is, nor refused: once the group was opened
    anywhere before, every further [</F-USER>] becomes a parenthesis, so the expression is no longer
    balanced (or closes a group of the user's own). *)
Theorem C80_closed_twice_refuted : exists a b,
  resolve (tx "yes") (tx "(<F-USER>" ++ a ++ tx "</F-USER>" ++ b ++ tx "</F-USER>") = tx "((?P<user>" ++ a ++ tx ")" ++ b ++ tx ")".
Proof. exists (tx "x"), (tx "y"). vm_compute. reflexivity. Qed.

(** ** C81 *)
Section C81.
  Context (compile : text -> option (list text)) (use_dns s : text) (r : regex) (m : dict text (option text)).
  Definition simple_parts : Prop :=
    forall k n, In k (dkeys m) -> alternative k n \/ component k n -> ~ has_prefix (tx "alt_") n /\ ~ has_prefix (tx "tuple_") n.
  Definition match_of : Prop := new_regex compile use_dns s = Some r /\ dwf m /\ dkeys m = rx_names r.
  Lemma match_parts : match_of -> dwf m /\ rx_alts r = parts true (dkeys m) /\ rx_tuples r = parts false (dkeys m).
  Proof.
    intros (H & W & E). split; [exact W|]. rewrite E. unfold new_regex in H. destruct (forallb blank (resolve use_dns s)); [discriminate|].
    destruct (compile (local_flags (resolve use_dns s))); [|discriminate]. injection H as <-. split; reflexivity.
  Qed.

  (** The value of a name after a match: its own group, if that matched something; else the first of its
      alternatives that matched something; else nothing. *)
  Theorem C81_single : match_of -> simple_parts -> forall n, n <> [] -> (forall k, In k (dkeys m) -> ~ component k n) ->
    exists v, single m n v /\ gget (get_groups r m) n = gof v.
  Proof. intros M Sp n. apply match_parts in M as (W & Ea & Et). now apply groups_single. Qed.

  (** With components the value is a tuple: the single value and the components in order, those that took
      no part as none. *)
  Theorem C81_tuple : match_of -> simple_parts -> forall n l, n <> [] -> l <> [] -> StronglySorted before l ->
    (forall k, In k l <-> In k (dkeys m) /\ component k n) ->
    exists v, single m n v /\ gget (get_groups r m) n = GTuple (gof v :: map (fun k => gof (matched m k)) l).
  Proof. intros M Sp n l. apply match_parts in M as (W & Ea & Et). now apply groups_components. Qed.
End C81.

Definition names_of (l : list string) (_ : text) : option (list text) := Some (map tx l).
Definition match1 : dict text (option text) :=
  [(tx "user", Some []); (tx "alt_user_2", Some (tx "bob")); (tx "alt_user", None); (tx "fid", Some (tx "x")); (tx "tuple_id_1", Some (tx "y")); (tx "tuple_id_2", None)].
Definition names1 := ["user"; "alt_user_2"; "alt_user"; "fid"; "tuple_id_1"; "tuple_id_2"].
Lemma simple1 : simple_parts match1.
Proof.
  assert (Go : forall alt k m, compl_name k = Some (alt, m) -> In k (dkeys match1) -> has_prefix (tx "alt_") (group_name m) \/ has_prefix (tx "tuple_") (group_name m) -> False).
  { intros alt k m C I P. cbn [match1 dkeys map fst In] in I.
    repeat (destruct I as [<- | I]; [vm_compute in C; try discriminate C; injection C as <- <-; destruct P as [[x P]|[x P]]; vm_compute in P; discriminate P|]). contradiction. }
  intros k n I H.
  assert (Nn : n <> []).
  { intros ->. destruct H as [(m' & G & N & _)|(m' & G & N & _)]; exact (N (proj1 (group_name_nil _) G)). }
  assert (exists alt m', compl_name k = Some (alt, m') /\ group_name m' = n) as (alt & m' & C & <-).
  { destruct H as [H|H]; [apply (part_compl true) in H; [|exact Nn]; destruct H as (m' & C & G); eauto|apply (part_compl false) in H; [|exact Nn]; destruct H as (m' & C & G); eauto]. }
  split; intros P; eapply Go; eauto.
Qed.
Example C81_demo : exists r, match_of (names_of names1) (tx "yes") (tx "x") r match1 /\ simple_parts match1
  /\ gget (get_groups r match1) (tx "user") = GText (tx "bob")
  /\ gget (get_groups r match1) (tx "fid") = GTuple [GText (tx "x"); GText (tx "y"); GNone]
  /\ alternative (tx "alt_user_2") (tx "user") /\ component (tx "tuple_id_1") (tx "fid").
Proof.
  eexists. split; [split; [vm_compute; reflexivity|split; [|reflexivity]]|split; [exact simple1|]].
  - unfold dwf. cbn [match1 dkeys map fst]. repeat (constructor; [cbn [In]; intros I; repeat (destruct I as [I|I]; [discriminate I|]); exact I|]). constructor.
  - split; [vm_compute; reflexivity|]. split; [vm_compute; reflexivity|]. split.
    + exists (tx "user"). split; [reflexivity|]. split; [discriminate|]. left. exists (tx "2"). split; [reflexivity|]. split; [discriminate|]. repeat constructor; vm_compute; discriminate.
    + exists (tx "id"). split; [reflexivity|]. split; [discriminate|]. left. exists (tx "1"). split; [reflexivity|]. split; [discriminate|]. repeat constructor; vm_compute; discriminate.
Qed.

(** jail.conf(5): a value found as [<F-ALT_USER1>] is stored as [F-USER] if there is no direct match.  It is
    not: only a number after an underscore is taken off the name, so the value is stored as [user1] and the
    user stays empty.  Two shipped filters (vsftpd, dovecot) use this spelling. *)
Theorem C81_numbered_refuted : exists r,
  new_regex (names_of ["alt_user1"; "user"; "ip4"]) (tx "yes") (tx "<F-ALT_USER1>.*</F-ALT_USER1> <F-USER>.*</F-USER> <IP4>") = Some r
  /\ let g := get_groups r [(tx "alt_user1", Some (tx "bob")); (tx "user", Some []); (tx "ip4", Some (tx "192.0.2.1"))] in
     gget g (tx "user") = GText [] /\ gget g (tx "user1") = GText (tx "bob").
Proof. eexists. split; [vm_compute; reflexivity|]. vm_compute. auto. Qed.

(** The parts are taken in the order of their names as texts, not of their numbers: the tenth alternative
    comes before the second, and the components of a tuple are out of order from the tenth on. *)
Theorem C81_order_refuted : exists r,
  new_regex (names_of ["alt_user_2"; "alt_user_10"; "fid"; "tuple_id_2"; "tuple_id_10"]) (tx "yes") (tx "x") = Some r
  /\ let g := get_groups r [(tx "alt_user_2", Some (tx "second")); (tx "alt_user_10", Some (tx "tenth"));
                            (tx "fid", Some (tx "a")); (tx "tuple_id_2", Some (tx "second")); (tx "tuple_id_10", Some (tx "tenth"))] in
     gget g (tx "user") = GText (tx "tenth") /\ gget g (tx "fid") = GTuple [GText (tx "a"); GText (tx "tenth"); GText (tx "second")].
Proof. eexists. split; [vm_compute; reflexivity|]. vm_compute. auto. Qed.

(** ** C82 *)
Definition id_names : list text := [tx "fid"; tx "ip4"; tx "ip6"; tx "dns"; tx "mlfid"].
(** A failregex is accepted exactly if it is not blank, compiles, and it or the prefix expression has a
    group that can identify the failure. *)
Theorem C82_accepted : forall compile pref use_dns s r, fail_regex compile pref use_dns s = Some r <->
  let e := resolve use_dns s in
  ~ Forall (fun c => blank c = true) e /\ compile (local_flags e) = Some (rx_names r) /\ rx_text r = local_flags e
  /\ rx_alts r = parts true (rx_names r) /\ rx_tuples r = parts false (rx_names r)
  /\ exists g, In g id_names /\ (In g (rx_names r) \/ exists p, pref = Some p /\ In g (rx_names p)).
Proof.
  intros compile pref d s r. cbn zeta. unfold fail_regex, new_regex. set (e := resolve d s).
  assert (Id : forall x, has_id x = true <-> exists g, In g id_names /\ In g (rx_names x)).
  { intros x. unfold has_id. rewrite existsb_exists. split; intros (g & I & H); exists g; (split; [exact I|]); now apply inb_In. }
  assert (Bl : forallb blank e = true <-> Forall (fun c => blank c = true) e) by now rewrite forallb_forall, Forall_forall.
  destruct (forallb blank e) eqn:B.
  - split; [discriminate|]. intros (H & _). destruct H. now apply Bl.
  - assert (Nb : ~ Forall (fun c => blank c = true) e) by (rewrite <- Bl; discriminate).
    destruct (compile (local_flags e)) as [names|] eqn:C; [|split; [discriminate|intros (_ & H & _); discriminate]].
    set (x := mkRegex _ _ _ _).
    assert (Ex : negb (has_id x) && match pref with None => true | Some p => negb (has_id p) end = false <->
                 exists g, In g id_names /\ (In g names \/ exists p, pref = Some p /\ In g (rx_names p))).
    { split.
      - intros H. destruct (has_id x) eqn:Hx; [apply Id in Hx as (g & I & J); exists g; split; [exact I|now left]|]. cbn [negb andb] in H.
        destruct pref as [p|]; [|discriminate]. apply negb_false_iff in H. apply Id in H as (g & I & J). exists g. split; [exact I|]. right. eauto.
      - intros (g & I & [J|(p & -> & J)]).
        + assert (Hx : has_id x = true) by (apply Id; exists g; auto). now rewrite Hx.
        + assert (Hp : has_id p = true) by (apply Id; exists g; auto). rewrite Hp. apply andb_false_r. }
    destruct (negb (has_id x) && _) eqn:H.
    + split; [discriminate|]. intros (_ & E & _ & _ & _ & g & I & J). injection E as E. rewrite <- E in J.
      assert (false = true) by (symmetry; rewrite <- (proj2 Ex); [reflexivity|exists g; auto]). discriminate.
    + destruct (proj1 Ex eq_refl) as (g & I & J). split.
      * intros E. injection E as <-. cbn [x rx_names rx_text rx_alts rx_tuples]. repeat (split; [auto|]). exists g. auto.
      * intros (_ & E & Et & Ea & Eu & _). injection E as E. unfold x. destruct r as [t n a u]. cbn [rx_names rx_text rx_alts rx_tuples] in *. subst. reflexivity.
Qed.

Lemma first_group : forall order m id, get_fail_id order m = Some id <->
  exists l g l', order = l ++ g :: l' /\ matched m g = Some id /\ Forall (fun k => matched m k = None) l.
Proof.
  induction order as [|k order IH]; intros m id; cbn [get_fail_id].
    - split; [discriminate|]. intros ([|] & g & l' & E & _); discriminate.
    - assert (D : match dget k m with Some (Some t) => Some t | _ => get_fail_id order m end = match matched m k with Some t => Some t | None => get_fail_id order m end).
      { unfold matched. now destruct (dget k m) as [[t|]|]. }
      rewrite D. destruct (matched m k) as [t|] eqn:E.
      + split.
        * intros H. injection H as <-. exists [], k, order. auto.
        * intros ([|x l] & g & l' & El & Hg & F); cbn [app] in El; injection El as -> El; [congruence|]. inversion F; congruence.
      + rewrite IH. split.
        * intros (l & g & l' & -> & Hg & F). exists (k :: l), g, l'. auto.
        * intros ([|x l] & g & l' & El & Hg & F); cbn [app] in El; injection El as -> El; [congruence|]. inversion F; subst. eauto 6.
Qed.
(** The failure is identified by the first of [fid], [ip4], [ip6], [dns] that took part in the match. *)
Theorem C82_id : forall m id, get_fail_id id_groups m = Some id <->
  exists l g l', [tx "fid"; tx "ip4"; tx "ip6"; tx "dns"] = l ++ g :: l' /\ matched m g = Some id /\ Forall (fun k => matched m k = None) l.
Proof. intros m id. apply first_group. Qed.

(** The host is the first of [ip4], [ip6], [dns] that took part. *)
Theorem C82_host : forall m id, get_host m = Some id <->
  exists l g l', [tx "ip4"; tx "ip6"; tx "dns"] = l ++ g :: l' /\ matched m g = Some id /\ Forall (fun k => matched m k = None) l.
Proof. intros m id. apply first_group. Qed.

(** The data of a failure: what the failregex has of a name, else what the prefix expression has; what the
    prefix expression calls [content] is not kept. *)
Theorem C82_prefix : forall p cur k, dwf p -> dwf cur ->
  dget k (with_prefix (Some p) cur) =
  match dget k cur with Some v => Some v | None => if eqb k (tx "content") then None else dget k p end.
Proof.
  intros p cur k Wp Wc. cbn [with_prefix].
  assert (F : forall l (d : gdict), dwf l -> dget k (fold_left (fun d kv => dset (fst kv) (snd kv) d) l d) = match dget k l with Some v => Some v | None => dget k d end).
  { induction l as [|[x v] l IH]; intros d W; [reflexivity|]. inversion W as [|? ? N W']; subst. cbn [fold_left fst snd dget]. rewrite IH by exact W'.
    rewrite dget_dset. destruct (eqb_spec k x) as [->|Nx]; [|reflexivity]. assert (E : dget x l = None) by now apply dget_None. now rewrite E. }
  rewrite F by exact Wc. destruct (dget k cur); [reflexivity|]. destruct (eqb_spec k (tx "content")) as [->|N].
  - now apply dget_ddel_same.
  - now apply dget_ddel_other.
Qed.

Example C82_demo :
  fail_regex (names_of ["user"]) None (tx "yes") (tx "<F-USER>x</F-USER>") = None
  /\ (exists r, fail_regex (names_of ["user"; "ip4"]) None (tx "yes") (tx "<F-USER>x</F-USER><IP4>") = Some r)
  /\ fail_regex (names_of ["ip4"]) None (tx "yes") (tx "  ") = None
  /\ get_fail_id id_groups [(tx "fid", None); (tx "ip6", Some (tx "::1")); (tx "dns", Some (tx "h"))] = Some (tx "::1").
Proof. split; [vm_compute; reflexivity|]. split; [eexists; vm_compute; reflexivity|]. vm_compute. auto. Qed.

(** An expression that gives the address only as alternatives is refused for having no failure ID, although a
    match of it would have one. *)
Theorem C82_alternatives_refuted : exists names r, forall use_dns, let s := tx "(?:from=<F-ALT_IP4_1>\S+</F-ALT_IP4_1>|<F-ALT_IP4_2>\S+</F-ALT_IP4_2>)" in
  fail_regex (names_of names) None use_dns s = None
  /\ new_regex (names_of names) use_dns s = Some r
  /\ gget (get_groups r [(tx "alt_ip4_1", None); (tx "alt_ip4_2", Some (tx "192.0.2.1"))]) (tx "ip4") = GText (tx "192.0.2.1").
Proof.
  exists ["alt_ip4_1"; "alt_ip4_2"]. eexists. intros d. cbn zeta.
  assert (E : resolve d (tx "(?:from=<F-ALT_IP4_1>\S+</F-ALT_IP4_1>|<F-ALT_IP4_2>\S+</F-ALT_IP4_2>)") = tx "(?:from=(?P<alt_ip4_1>\S+)|(?P<alt_ip4_2>\S+))") by (vm_compute; reflexivity).
  unfold fail_regex, new_regex. rewrite E. split; [vm_compute; reflexivity|]. split; [vm_compute; reflexivity|]. vm_compute. reflexivity.
Qed.

(** jail.conf(5): a value matched in the failregex overwrites one matched in the prefix expression.  A group
    of the failregex that took no part in the match overwrites it as well: here the address found by the
    prefix expression is lost because the failregex has an optional address, and nobody is banned. *)
Definition session_groups (g : gdict) : groups := map (fun kv => (string_of_list_ascii (fst kv), match snd kv with GText t => Some t | _ => None end)) g.
Theorem C82_prefix_refuted : exists pre cur,
  gget pre (tx "ip4") = GText (tx "192.0.2.1") /\ gget cur (tx "ip4") = GNone
  /\ snd (take_match no_sessions 0 false (fun _ => []) (session_groups pre) []) <> VNone
  /\ gget (with_prefix (Some pre) cur) (tx "ip4") = GNone
  /\ snd (take_match no_sessions 0 false (fun _ => []) (session_groups (with_prefix (Some pre) cur)) []) = VNone.
Proof.
  exists [(tx "ip4", GText (tx "192.0.2.1")); (tx "content", GText (tx "failed"))], [(tx "ip4", GNone); (tx "user", GText (tx "root"))].
  split; [vm_compute; reflexivity|]. split; [vm_compute; reflexivity|]. split; [vm_compute; discriminate|]. split; vm_compute; reflexivity.
Qed.

(** ** C83 *)
(** Flags written at the beginning of a group apply to this group only, wherever it stands. *)
Theorem C83_local : forall a o f b, opens o -> flags f -> ~ escaped a ->
  local_flags (a ++ o ++ tx "(?" ++ f ++ tx ")" ++ b) = local_flags a ++ tx "(?" ++ f ++ tx ":" ++ local_flags b.
Proof. exact local_flags_local. Qed.
(** Nothing else in an expression is changed. *)
Theorem C83_else : forall t, (forall a o f b, opens o -> flags f -> t = a ++ o ++ tx "(?" ++ f ++ tx ")" ++ b -> escaped a) -> local_flags t = t.
Proof. exact local_flags_else. Qed.
Example C83_demo : opens (tx "(?:") /\ flags (tx "is") /\ ~ escaped (tx "a\(") /\ escaped (tx "a\")
  /\ local_flags (tx "a\((?:(?is)b)") = tx "a\((?is:b)" /\ local_flags (tx "a\((?i)b)") = tx "a\((?i)b)".
Proof.
  split; [now right|]. split; [split; [discriminate|repeat constructor; vm_compute; discriminate]|].
  split; [intros [b E]; change (tx "a\(") with ["a"; "\"; "("]%char in E; do 4 (destruct b as [|? b]; [discriminate E|]); discriminate E|].
  split; [exists (tx "a"); reflexivity|]. split; vm_compute; reflexivity.
Qed.

(** An expression in which the group follows an escaped backslash keeps its flags where they are, which
    Python does not allow in the middle of an expression: it is refused. *)
Theorem C83_backslash_refuted : exists a b, local_flags (a ++ tx "((?i)" ++ b) <> a ++ tx "(?i:" ++ b /\ a = tx "^x\\" /\ b = tx "y)$".
Proof. exists (tx "^x\\"), (tx "y)$"). split; [vm_compute; discriminate|auto]. Qed.

Print Assumptions C80_tags.
Print Assumptions C80_plain.
Print Assumptions C80_closed_twice_refuted.
Print Assumptions C81_single.
Print Assumptions C81_tuple.
Print Assumptions C81_numbered_refuted.
Print Assumptions C81_order_refuted.
Print Assumptions C82_accepted.
Print Assumptions C82_id.
Print Assumptions C82_host.
Print Assumptions C82_prefix.
Print Assumptions C82_alternatives_refuted.
Print Assumptions C82_prefix_refuted.
Print Assumptions C83_local.
Print Assumptions C83_else.
Print Assumptions C83_backslash_refuted.
