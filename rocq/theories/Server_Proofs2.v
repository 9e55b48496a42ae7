(** Proofs about the server, part 2: the quiet flag, the end of a reload, other jails, unbanning. *)
From Verif Require Import Base Server_Model Server_Spec Server_Proofs.
Open Scope string_scope.
Open Scope list_scope.
Open Scope Z_scope.

(** ** The two commands that contain commands *)
Definition reload_stream (w : env) (rest : list arg) (s : srv) : srv * option err :=
  match rest with
  | [] => (s, Some EIndex)
  | T t :: _ => (s, if eqb t "" then None else Some EInvalid)
  | A cs :: _ => stream w cs s
  end.

Definition reload_middle (w : env) (n o : arg) (rest : list arg) (s : srv) : srv * option err :=
  match reload_begin w n o (set_quiet true s) with
  | (s1, Some e) => (s1, Some e)
  | (s1, None) => reload_stream w rest s1
  end.

Lemma handler_reload w n o rest s :
  handler w (A (T "reload" :: n :: o :: rest)) s =
  let '(s2, e) := reload_middle w n o rest s in
  match reload_end w (set_quiet false s2) with
  | (s3, Some e') => (s3, Bad e')
  | (s3, None) => (s3, match e with Some x => Bad x | None => Good (VTxt "OK") end)
  end.
Proof. reflexivity. Qed.

Lemma handler_stream w cs r s :
  handler w (A (T "server-stream" :: A cs :: r)) s =
  let '(s', e) := stream w cs (set_quiet true s) in
  (set_quiet false s', match e with Some x => Bad x | None => Good VNone end).
Proof. reflexivity. Qed.

Lemma arg_cases c :
  simple c
  \/ (exists n o rest, c = A (T "reload" :: n :: o :: rest))
  \/ (exists args, c = A (T "reload" :: args) /\ (length args < 2)%nat)
  \/ (exists cs r, c = A (T "server-stream" :: A cs :: r))
  \/ (exists args, c = A (T "server-stream" :: args) /\ forall cs r, args <> A cs :: r).
Proof.
  destruct c as [t|[|[name|x] args]]; [left; exact I|left; exact I| |left; exact I].
  destruct (eqb_spec name "reload") as [->|N1].
  { right. destruct args as [|n [|o rest]]; [right; left; exists []; cbn; auto|right; left; exists [n]; cbn; auto|].
    left. exists n, o, rest. reflexivity. }
  destruct (eqb_spec name "server-stream") as [->|N2].
  { do 3 right. destruct args as [|[t|cs] r]; [right|right|left].
    - exists []. split; [reflexivity|discriminate].
    - exists (T t :: r). split; [reflexivity|discriminate].
    - exists cs, r. reflexivity. }
  left. split; assumption.
Qed.

Lemma handler_reload_short w args s : (length args < 2)%nat ->
  handler w (A (T "reload" :: args)) s = (set_quiet false s, Bad EType).
Proof. destruct args as [|n [|o rest]]; cbn [length]; intros; try lia; reflexivity. Qed.

Lemma handler_stream_short w args s : (forall cs r, args <> A cs :: r) ->
  fst (handler w (A (T "server-stream" :: args)) s) = set_quiet false s.
Proof. destruct args as [|[t|cs] r]; intros H; try reflexivity. now specialize (H cs r). Qed.

(** ** The quiet flag *)
Section Quiet.
  Variable w : env.
  Variable q : bool.
  Let P (s : srv) := s_quiet s = q.

  Lemma q_put n j j' s : P s -> lookup s n = Some j -> tweak j j' -> P (put n j' s).
  Proof. auto. Qed.
  Lemma q_del n a b s : P s -> P (fst (del_jail w n a b s)).
  Proof.
    intros H. unfold del_jail. destruct (lookup s n) as [j|]; [|exact H]. cbv zeta.
    destruct (b || is_alive j); destruct b; cbn [note put set_jails s_db];
      try exact H; destruct (s_db s); try exact H; destruct (e_dbdel w n); exact H.
  Qed.
  Lemma q_add n b s : P s -> P (fst (add_jail w n b s)).
  Proof.
    intros H. unfold add_jail.
    match goal with |- context [match ?x with (_, _) => _ end] => assert (H1 : P (fst (fst x))) end.
    { destruct (dget n (s_reload s)) as [[|]|]; try exact H. destruct (lookup s n) as [j|]; [|exact H].
      destruct (eqb (j_backend j) b); [exact H|].
      pose proof (q_del n true true s H) as H1. destruct (del_jail w n true true s) as [s' [e|]]; exact H1. }
    match goal with |- context [match ?x with (_, _) => _ end] => destruct x as [[s1 e1] flg] end.
    cbn [fst] in H1. destruct e1; [exact H1|].
    assert (H2 : P (fst (if flg then jails_add w n b s1 else (s1, None)))).
    { destruct flg; [|exact H1]. unfold jails_add. destruct (dmem _ _); [exact H1|]. destruct (e_make w n b); exact H1. }
    destruct (if flg then jails_add w n b s1 else (s1, None)) as [s2 [e|]]; [exact H2|].
    unfold db_add. destruct (s_db s2); [|exact H2]. destruct (e_dbadd w n); exact H2.
  Qed.
  Lemma q_start n s : P s -> P (fst (start_jail w n s)).
  Proof.
    intros H. unfold start_jail. destruct (lookup s n) as [j|]; [|exact H].
    match goal with |- context [match ?x with (_, _) => _ end] => assert (H1 : P (fst (fst x))) end.
    { destruct (negb (is_alive j)).
      - destruct (jail_start w n j) as [j' e]. destruct (is_alive j'); exact H.
      - destruct (dmem n (s_reload s)); exact H. }
    match goal with |- context [match ?x with (_, _) => _ end] => destruct x as [[s1 j1] [e|]] end; [exact H1|].
    cbn [fst] in *. destruct (j_idle j1); exact H1.
  Qed.
  Lemma q_begin n s : P s -> P (fst (begin_one w n s)).
  Proof. intros H. unfold begin_one. destruct (lookup s n); [|exact H]. cbv zeta. destruct (e_begin w n); exact H. Qed.
  Lemma q_commit n s : P s -> P (fst (commit_one w n s)).
  Proof. intros H. unfold commit_one. destruct (lookup s n); [|exact H]. destruct (e_end w n); exact H. Qed.
  Lemma q_set m args s : P s -> P (fst (command_set w m args s)).
  Proof. apply command_set_pres. exact q_put. Qed.
  Lemma q_unban n ips b s : P s -> P (fst (set_unban w n ips b s)).
  Proof. apply set_unban_pres. exact q_put. Qed.

  Lemma q_simple c s : simple c -> P s -> P (fst (handler w c s)).
  Proof. apply handler_simple_pres; auto using q_del, q_add, q_start, q_set, q_unban. Qed.
  Lemma q_begin_all n o s : P s -> P (fst (reload_begin w n o s)).
  Proof. apply reload_begin_pres; auto using q_del, q_unban, q_begin. Qed.
  Lemma q_end s : P s -> P (fst (reload_end w s)).
  Proof. apply reload_end_pres; auto using q_del, q_commit. Qed.
End Quiet.

Lemma handler_quiet w c s :
  s_quiet (fst (handler w c s)) = s_quiet s \/ s_quiet (fst (handler w c s)) = false.
Proof.
  destruct (arg_cases c) as [S|[(n & o & rest & ->)|[(args & -> & L)|[(cs & r & ->)|(args & -> & N)]]]].
  - left. now apply q_simple.
  - right. rewrite handler_reload. destruct (reload_middle w n o rest s) as [s2 e].
    pose proof (q_end w false (set_quiet false s2) eq_refl) as H.
    destruct (reload_end w (set_quiet false s2)) as [s3 [e'|]]; exact H.
  - right. rewrite handler_reload_short by exact L. reflexivity.
  - right. rewrite handler_stream. destruct (stream w cs (set_quiet true s)). reflexivity.
  - right. rewrite handler_stream_short by exact N. reflexivity.
Qed.

(** ** The end of a reload *)
Definition same_rest (s s' : srv) : Prop :=
  s_reload s' = s_reload s /\ s_quiet s' = s_quiet s /\ s_next s' = s_next s /\ s_db s' = s_db s.

Lemma same_rest_refl s : same_rest s s.
Proof. repeat split. Qed.
Lemma same_rest_trans a b c : same_rest a b -> same_rest b c -> same_rest a c.
Proof. unfold same_rest. intuition congruence. Qed.

Lemma each_commit w l : (forall n, e_end w n = true) -> forall s, NoDup l ->
  exists s', each (commit_one w) l s = (s', None)
    /\ (forall n, jail_of s' n = if inb n l then option_map filter_end (jail_of s n) else jail_of s n)
    /\ same_rest s s' /\ s_enabled s' = s_enabled s /\ s_events s' = s_events s.
Proof.
  intros OK. induction l as [|m r IH]; intros s N.
  - exists s. repeat split; auto.
  - inversion N as [|? ? Nm Nr]; subst. cbn [each]. unfold commit_one at 1.
    destruct (lookup s m) as [j|] eqn:L.
    + rewrite OK. destruct (IH (put m (filter_end j) s) Nr) as (s' & E & J & R & EN & EV).
      exists s'. split; [exact E|]. split; [|split; [exact R|split; [exact EN|exact EV]]].
      intros n. rewrite J, jail_of_put. cbn [inb existsb]. unfold inb in *.
      destruct (eqb_spec n m) as [->|Nn].
      * apply inb_false in Nm. unfold inb in Nm. rewrite Nm. cbn. unfold jail_of. unfold lookup in L. rewrite L. reflexivity.
      * reflexivity.
    + destruct (IH s Nr) as (s' & E & J & R & EN & EV).
      exists s'. split; [exact E|]. split; [|split; [exact R|split; [exact EN|exact EV]]].
      intros n. rewrite J. cbn [inb existsb]. unfold inb in *.
      destruct (eqb_spec n m) as [->|Nn]; [|reflexivity].
      unfold jail_of. unfold lookup in L. rewrite L. cbn. now destruct (existsb (eqb m) r).
Qed.

Lemma del_jail_ok w n a s j : inv s -> jail_of s n = Some j -> (s_db s = true -> e_dbdel w n = true) ->
  exists s', del_jail w n a true s = (s', None)
    /\ (forall m, jail_of s' m = if eqb m n then None else jail_of s m)
    /\ same_rest s s' /\ s_events s' = s_events s ++ [Stopped (j_no j)]
    /\ (forall m, In m (s_enabled s') <-> In m (s_enabled s) /\ (s_db s = true -> m <> n)).
Proof.
  intros I L D. unfold del_jail. change (lookup s n) with (jail_of s n). rewrite L. cbn [orb]. cbv zeta.
  cbn [note put set_jails s_db].
  assert (J : forall m db en, jail_of (MkSrv (ddel n (dset n (jail_stop a true j) (s_jails s))) (s_reload s) (s_quiet s) (s_next s)
      db en (s_events s ++ [Stopped (j_no j)])) m = if eqb m n then None else jail_of s m).
  { intros m db en. unfold jail_of. cbn [s_jails]. rewrite dget_ddel by (apply dwf_dset, I). rewrite dget_dset.
    now destruct (eqb m n). }
  destruct (s_db s) eqn:Db.
  - rewrite (D eq_refl). eexists. split; [reflexivity|]. cbn [set_enabled set_jails s_jails s_enabled s_events s_reload s_quiet s_next s_db].
    split; [intros m; apply J|]. split; [repeat split; exact Db|]. split; [reflexivity|].
    intros m. rewrite filter_In, negb_true_iff, eqb_neq. intuition congruence.
  - eexists. split; [reflexivity|]. cbn [set_jails s_jails s_enabled s_events].
    split; [intros m; apply J|]. split; [repeat split; exact Db|]. split; [reflexivity|].
    intros m. intuition discriminate.
Qed.

Lemma each_del w a l : (forall n, e_dbdel w n = true) -> forall s, inv s -> NoDup l ->
  (forall n, In n l -> exists j, jail_of s n = Some j) ->
  exists s', each (fun n => del_jail w n a true) l s = (s', None)
    /\ (forall n, jail_of s' n = if inb n l then None else jail_of s n)
    /\ same_rest s s'
    /\ (forall e, In e (s_events s') <-> In e (s_events s) \/ exists n j, In n l /\ jail_of s n = Some j /\ e = Stopped (j_no j))
    /\ (forall m, In m (s_enabled s') <-> In m (s_enabled s) /\ (s_db s = true -> ~ In m l)).
Proof.
  intros OK. induction l as [|m r IH]; intros s I N X.
  - exists s. split; [reflexivity|]. split; [reflexivity|]. split; [apply same_rest_refl|].
    split; [|intros m; tauto]. intros e. split; [auto|]. intros [H|(n & j & [] & _)]; exact H.
  - inversion N as [|? ? Nm Nr]; subst. cbn [each].
    destruct (X m (or_introl eq_refl)) as [j L].
    destruct (del_jail_ok w m a s j I L (fun _ => OK m)) as (s1 & E1 & J1 & R1 & V1 & B1).
    rewrite E1.
    assert (I1 : inv s1). { pose proof (inv_del w m a true s I) as H. rewrite E1 in H. exact H. }
    assert (Neq : forall n, In n r -> n <> m) by (intros n H ->; contradiction).
    destruct (IH s1 I1 Nr) as (s' & E & J & R & V & B).
    { intros n H. destruct (X n (or_intror H)) as [k Lk]. exists k. rewrite J1.
      specialize (Neq n H). apply eqb_neq in Neq. now rewrite Neq. }
    exists s'. split; [exact E|]. split; [|split; [eapply same_rest_trans; eauto|split]].
    + intros n. rewrite J, J1. cbn [inb existsb]. unfold inb. destruct (eqb n m); [now destruct (existsb _ r)|reflexivity].
    + intros e. rewrite V, V1, in_app_iff. cbn [In]. split.
      * intros [[H|[H|[]]]|(n & k & H & Lk & Ee)]; [auto|right; exists m, j; auto|].
        right. exists n, k. rewrite J1 in Lk. destruct (eqb n m); [discriminate|auto].
      * intros [H|(n & k & [->|H] & Lk & Ee)]; [auto| |].
        { rewrite L in Lk. injection Lk as ->. auto. }
        right. exists n, k. rewrite J1. specialize (Neq n H). apply eqb_neq in Neq. rewrite Neq. auto.
    + intros n. rewrite B, B1. destruct R1 as (_ & _ & _ & ->). cbn [In]. split.
      * intros [[H H1] H2]. split; [exact H|]. intros D [E0|H3]; [now apply (H1 D)|now apply (H2 D)].
      * intros [H H1]. split; [split; [exact H|]|]; intros D; specialize (H1 D); intuition congruence.
Qed.

Lemma NoDup_filter_names {X} (f : string * X -> bool) d : NoDup (map fst d) -> NoDup (map fst (filter f d)).
Proof. apply (dwf_filter (K:=string)). Qed.

Lemma NoDup_filter_str (f : string -> bool) l : NoDup l -> NoDup (filter f l).
Proof.
  induction l as [|x r IH]; cbn; intros H; [constructor|]. inversion H; subst. destruct (f x); [|auto].
  constructor; [|auto]. intros I. apply filter_In in I. tauto.
Qed.

Lemma jail_of_names s n : In n (names s) <-> exists j, jail_of s n = Some j.
Proof.
  unfold names, jail_of. split; [intros H; now apply dget_ex|]. intros (j & H). eapply dget_key; eauto.
Qed.

Lemma inb_filter f (n : string) l : inb n (filter f l) = f n && inb n l.
Proof.
  destruct (inb n (filter f l)) eqn:E.
  - apply inb_In, filter_In in E as [H1 H2]. rewrite H2. symmetry. now apply inb_In in H1.
  - apply inb_false in E. rewrite filter_In in E. destruct (f n) eqn:F; [|reflexivity]. cbn. symmetry. apply inb_false. tauto.
Qed.

Lemma reload_end_ok w s : ends_ok w -> inv s ->
  exists s', reload_end w s = (s', None)
    /\ (forall n, jail_of s' n = if dmem n (s_reload s) then None else option_map filter_end (jail_of s n))
    /\ s_reload s' = [] /\ s_quiet s' = s_quiet s /\ s_next s' = s_next s /\ s_db s' = s_db s
    /\ (forall e, In e (s_events s') <-> In e (s_events s) \/
          exists n j, dmem n (s_reload s) = true /\ jail_of s n = Some j /\ e = Stopped (j_no j))
    /\ (forall m, In m (s_enabled s') <-> In m (s_enabled s) /\
          (s_db s = true -> ~ (dmem m (s_reload s) = true /\ exists j, jail_of s m = Some j))).
Proof.
  intros OK I. unfold reload_end. cbv zeta.
  assert (W : NoDup (dkeys (s_jails s))) by apply I.
  destruct (each_commit w (filter (fun n => negb (dmem n (s_reload s))) (dkeys (s_jails s))) (fun n => proj1 (OK n)) s)
    as (s1 & E1 & J1 & R1 & B1 & V1); [now apply NoDup_filter_str|].
  rewrite E1.
  assert (I1 : inv s1).
  { pose proof (each_pres inv (commit_one w) (filter (fun n => negb (dmem n (s_reload s))) (dkeys (s_jails s)))
      (fun n s => inv_commit w n s) s I) as H. rewrite E1 in H. exact H. }
  destruct (each_del w true (filter (fun n => dmem n (s_reload s)) (dkeys (s_jails s))) (fun n => proj2 (OK n)) s1 I1)
    as (s2 & E2 & J2 & R2 & V2 & B2); [now apply NoDup_filter_str| |].
  { intros n H. apply filter_In in H as [H1 H2]. destruct (dget_ex n (s_jails s) H1) as [j L].
    rewrite J1, inb_filter, H2. cbn [negb andb]. exists j. exact L. }
  rewrite E2. exists (set_reload [] s2). split; [reflexivity|].
  destruct R1 as (Ra & Rb & Rc & Rd), R2 as (Re & Rf & Rg & Rh).
  assert (Keys : forall n j, jail_of s n = Some j -> inb n (dkeys (s_jails s)) = true).
  { intros n j L. apply inb_In. eapply dget_key. exact L. }
  split; [|split; [reflexivity|split; [cbn; congruence|split; [cbn; congruence|split; [cbn; congruence|split]]]]].
  - intros n. change (jail_of (set_reload [] s2) n) with (jail_of s2 n). rewrite J2, J1, !inb_filter.
    destruct (jail_of s n) as [j|] eqn:L.
    + rewrite (Keys n j L), !andb_true_r. now destruct (dmem n (s_reload s)).
    + assert (K : inb n (dkeys (s_jails s)) = false). { apply inb_false. now apply dget_None. }
      rewrite K, !andb_false_r. now destruct (dmem n (s_reload s)).
  - intros e. cbn [set_reload s_events]. rewrite V2, V1. split; (intros [H|(n & j & H1 & H2 & H3)]; [now left|right]).
    + apply filter_In in H1 as [H1 H4]. rewrite J1, inb_filter, H4 in H2. exists n, j. auto.
    + exists n, j. rewrite J1, inb_filter, H1. split; [|auto]. apply filter_In. split; [|exact H1].
      apply inb_In. eauto.
  - intros m. cbn [set_reload s_enabled]. rewrite B2, B1, Rd. rewrite filter_In. split.
    + intros [H1 H2]. split; [exact H1|]. intros D [H3 (j & H4)]. apply (H2 D). split; [|exact H3].
      apply inb_In. eauto.
    + intros [H1 H2]. split; [exact H1|]. intros D [H3 H4]. apply (H2 D). split; [exact H4|].
      apply dget_ex in H3. exact H3.
Qed.

(** ** Between commands no reload is open *)
Definition closed (s : srv) : Prop :=
  s_reload s = [] /\ forall n j, jail_of s n = Some j -> j_rlogs j = None.

Definition cinv (s : srv) : Prop := inv s /\ closed s.

Lemma closed_put s n j j' : closed s -> jail_of s n = Some j -> (j_rlogs j = None -> j_rlogs j' = None) -> closed (put n j' s).
Proof.
  intros [C1 C2] L R. split; [exact C1|]. intros m k. rewrite jail_of_put.
  destruct (eqb m n); [intros E; injection E as <-; eauto|eauto].
Qed.

Lemma closed_put_new s n j' : closed s -> j_rlogs j' = None -> closed (put n j' s).
Proof.
  intros [C1 C2] R. split; [exact C1|]. intros m k. rewrite jail_of_put.
  destruct (eqb m n); [intros E; injection E as <-; eauto|eauto].
Qed.

Lemma closed_ddel s n : inv s -> closed s -> closed (set_jails (ddel n (s_jails s)) s).
Proof.
  intros I [C1 C2]. split; [exact C1|]. intros m k. unfold jail_of. cbn [set_jails s_jails].
  rewrite dget_ddel by apply I. destruct (eqb m n); [discriminate|]. apply C2.
Qed.

Lemma closed_del w n a b s : inv s -> closed s -> closed (fst (del_jail w n a b s)).
Proof.
  intros I C. unfold del_jail. destruct (lookup s n) as [j|] eqn:L; [|exact C].
  assert (C1 : closed (put n (jail_stop a b j) s)) by (apply (closed_put s n j); auto).
  assert (I1 : inv (put n (jail_stop a b j) s)) by (apply inv_stop; auto).
  destruct b; cbn [orb]; cbv zeta.
  - pose proof (closed_ddel _ n I1 C1) as C2. destruct (s_db _); [destruct (e_dbdel w n)|]; [exact C2|exact C1|exact C2].
  - destruct (is_alive j); [exact C1|exact C].
Qed.

Lemma closed_add w n b s : closed s -> closed (fst (add_jail w n b s)).
Proof.
  intros C. pose proof C as [C1 C2]. unfold add_jail. rewrite C1. cbn [dget].
  unfold jails_add. destruct (dmem n (s_jails s)); [exact C|]. destruct (e_make w n b); [|exact C].
  assert (C3 : closed (note (Created (s_next s) n) (set_next (s_next s + 1) (put n (new_jail (s_next s) b) s)))).
  { apply (closed_put_new s n (new_jail (s_next s) b)); auto. }
  unfold db_add. destruct (s_db _); [|exact C3]. destruct (e_dbadd w n); exact C3.
Qed.

Lemma closed_start w n s : closed s -> closed (fst (start_jail w n s)).
Proof.
  intros C. pose proof C as [C1 C2]. unfold start_jail. destruct (lookup s n) as [j|] eqn:L; [|exact C].
  rewrite C1. change (dmem n []) with false.
  destruct (negb (is_alive j)).
  - destruct (jail_start_no w n j) as (N & R & _). destruct (jail_start w n j) as [j' e]. cbn [fst] in *.
    assert (C3 : closed (put n j' s)) by (apply (closed_put s n j); auto; congruence).
    assert (C4 : closed (if is_alive j' then note (Started (j_no j)) (put n j' s) else put n j' s)) by (destruct (is_alive j'); exact C3).
    destruct e; [exact C4|]. destruct (j_idle j'); [|exact C4]. cbn [fst].
    apply closed_put_new; [exact C4|]. cbn. rewrite R. exact (C2 n j L).
  - destruct (j_idle j); [|exact C]. apply closed_put_new; [exact C|]. exact (C2 n j L).
Qed.

Lemma cinv_simple w c s : simple c -> cinv s -> cinv (fst (handler w c s)).
Proof.
  apply handler_simple_pres.
  - intros n a b s' [I C]. split; [now apply inv_del | now apply closed_del].
  - intros n b s' [I C]. split; [now apply inv_add | now apply closed_add].
  - intros n s' [I C]. split; [now apply inv_start | now apply closed_start].
  - intros m args s'. apply command_set_pres. intros n j j' s'' [I C] L W. split; [eapply inv_tweak; eauto|].
    apply (closed_put s'' n j); auto. apply W.
  - intros n ips b s'. apply set_unban_pres. intros m j j' s'' [I C] L W. split; [eapply inv_tweak; eauto|].
    apply (closed_put s'' m j); auto. apply W.
Qed.

Lemma filter_end_rlogs j : j_rlogs (filter_end j) = None.
Proof. unfold filter_end. destruct (j_rlogs j) eqn:E; [reflexivity|exact E]. Qed.

Lemma reload_closes w n o rest s : ends_ok w -> inv s -> closed (fst (handler w (A (T "reload" :: n :: o :: rest)) s)).
Proof.
  intros OK I. rewrite handler_reload.
  assert (I2 : inv (fst (reload_middle w n o rest s))).
  { unfold reload_middle. assert (H : inv (fst (reload_begin w n o (set_quiet true s)))).
    { apply reload_begin_pres; auto using inv_del, inv_begin, inv_quiet.
      intros. apply set_unban_pres; auto. intros. eapply inv_tweak; eauto. }
    destruct (reload_begin w n o (set_quiet true s)) as [s1 [e|]]; [exact H|].
    unfold reload_stream. destruct rest as [|[t|cs] r]; [exact H|exact H|]. now apply inv_stream. }
  destruct (reload_middle w n o rest s) as [s2 e].
  destruct (reload_end_ok w (set_quiet false s2) OK (inv_quiet false s2 I2)) as (s3 & E & J & R & _).
  rewrite E. cbn [fst]. split; [exact R|]. intros m j H. rewrite J in H.
  destruct (dmem m _); [discriminate|]. destruct (jail_of _ m); [|discriminate]. cbn in H. injection H as <-. apply filter_end_rlogs.
Qed.

Lemma closed_quiet q s : closed s -> closed (set_quiet q s).
Proof. intros C; exact C. Qed.

Lemma cinv_quiet q s : cinv s -> cinv (set_quiet q s).
Proof. intros [I C]. split; [now apply inv_quiet | exact C]. Qed.

Lemma cinv_handler w c : ends_ok w -> 
  (forall s, cinv s -> cinv (fst (handler w c s)))
  /\ match c with A cs => forall s, cinv s -> cinv (fst (stream w cs s)) | T _ => True end.
Proof.
  intros OK. induction c as [t|l IH] using arg_ind'; [split; auto|].
  split; [|induction l as [|c r IHr]; intros s H; [exact H|];
           inversion IH as [|? ? [I1 _] I2]; subst; rewrite stream_cons;
           specialize (I1 s H); destruct (handler w c s) as [s' [v|e]]; [|exact I1]; apply IHr; auto].
  intros s H. destruct (arg_cases (A l)) as [S|[(n & o & rest & E)|[(args & E & L)|[(cs & r & E)|(args & E & N)]]]].
  - now apply cinv_simple.
  - rewrite E in *. split; [apply inv_handler, H | apply reload_closes; [exact OK | apply H]].
  - rewrite E, handler_reload_short by exact L. now apply cinv_quiet.
  - rewrite E, handler_stream. injection E as ->. inversion IH as [|? ? _ IH1]; subst.
    inversion IH1 as [|? ? [_ IH2] _]; subst. specialize (IH2 (set_quiet true s) (cinv_quiet true s H)).
    destruct (stream w cs (set_quiet true s)) as [s' e]. now apply cinv_quiet.
  - rewrite E, handler_stream_short by exact N. now apply cinv_quiet.
Qed.

Lemma cinv_step s o : op_env ends_ok o -> cinv s -> cinv (fst (sv_step s o)).
Proof.
  intros OK C. pose proof C as [I [C1 C2]].
  destruct o as [w c|n f|n|n ip|n ip]; (split; [now apply inv_step|]); cbn [sv_step].
  - unfold proceed. pose proof (proj2 (proj1 (cinv_handler w c OK) s C)) as H.
    destruct (handler w c s) as [s' [v|e]]; exact H.
  - cbn [fst]. destruct (lookup s n) as [j|] eqn:L; [|exact (proj2 C)]. apply (closed_put s n j); auto. exact (proj2 C).
  - cbn [fst]. destruct (lookup s n) as [j|] eqn:L; [|exact (proj2 C)]. apply (closed_put s n j); auto. exact (proj2 C).
  - cbn [fst]. destruct (lookup s n) as [j|] eqn:L; [|exact (proj2 C)]. apply (closed_put s n j); auto. exact (proj2 C).
  - cbn [fst]. destruct (lookup s n) as [j|] eqn:L; [|exact (proj2 C)]. apply (closed_put s n j); auto. exact (proj2 C).
Qed.

Lemma cinv_init db : cinv (srv_init db).
Proof. split; [apply inv_init|]. split; [reflexivity|]. discriminate. Qed.

Lemma cinv_run ops : forall s, Forall (op_env ends_ok) ops -> cinv s -> cinv (sv_run s ops).
Proof.
  induction ops as [|o r IH]; intros s F C; [exact C|]. inversion F; subst. apply IH; [assumption|]. now apply cinv_step.
Qed.

Lemma quiet_step s o : s_quiet s = false -> s_quiet (fst (sv_step s o)) = false.
Proof.
  intros Q. destruct o as [w c|n f|n|n ip|n ip]; cbn [sv_step].
  - unfold proceed. pose proof (handler_quiet w c s) as H.
    destruct (handler w c s) as [s' [v|e]]; cbn [fst] in *; destruct H; congruence.
  - cbn [fst]. destruct (lookup s n); exact Q.
  - cbn [fst]. destruct (lookup s n); exact Q.
  - cbn [fst]. destruct (lookup s n); exact Q.
  - cbn [fst]. destruct (lookup s n); exact Q.
Qed.

Lemma quiet_run ops : forall s, s_quiet s = false -> s_quiet (sv_run s ops) = false.
Proof. induction ops as [|o r IH]; intros s Q; [exact Q|]. apply IH, quiet_step, Q. Qed.
