(** Proofs about the server, part 6: the registry and the database, the names of a configuration, unbanning. *)
From Verif Require Import Base Server_Model Server_Spec Server_Proofs Server_Proofs2 Server_Proofs3 Server_Proofs4 Server_Proofs5.
Open Scope string_scope.
Open Scope list_scope.
Open Scope Z_scope.

(** ** The database knows the jails *)
Definition dbinv (s : srv) : Prop :=
  inv s /\ (s_db s = true -> forall m, In m (s_enabled s) <-> jail_of s m <> None).

Lemma dbinv_put s n j j' : dbinv s -> lookup s n = Some j -> tweak j j' -> dbinv (put n j' s).
Proof.
  intros [I D] L W. split; [now apply (inv_tweak s n j)|]. intros E m. rewrite jail_of_put.
  change (s_enabled (put n j' s)) with (s_enabled s). rewrite (D E). destruct (eqb_spec m n) as [->|]; [|reflexivity].
  unfold jail_of. unfold lookup in L. rewrite L. split; discriminate.
Qed.

Lemma dbinv_del w n a b s : db_ok w -> dbinv s -> dbinv (fst (del_jail w n a b s)).
Proof.
  intros OK [I D]. split; [now apply inv_del|].
  destruct (jail_of s n) as [j|] eqn:L.
  2: { unfold del_jail. change (lookup s n) with (jail_of s n). rewrite L. exact D. }
  destruct b.
  - destruct (del_jail_ok w n a s j I L (fun _ => proj2 (OK n))) as (s' & E & J & (R1 & R2 & R3 & R4) & V & B). rewrite E. cbn [fst].
    rewrite R4. intros Db m. rewrite B, J, (D Db). destruct (eqb_spec m n) as [->|N].
    + split; [intros [_ H]; now elim (H Db)|congruence].
    + split; [tauto|]. auto.
  - unfold del_jail. change (lookup s n) with (jail_of s n). rewrite L. cbn [orb]. cbv zeta. cbn [fst].
    destruct (is_alive j); [|exact D]. intros Db m. rewrite jail_of_put. change (s_enabled (put n (jail_stop a false j) s)) with (s_enabled s).
    rewrite (D Db). destruct (eqb_spec m n) as [->|]; [|reflexivity]. rewrite L. split; discriminate.
Qed.

Lemma dbinv_dbadd w n s : db_ok w -> inv s -> (s_db s = true -> forall m, m <> n -> (In m (s_enabled s) <-> jail_of s m <> None)) ->
  jail_of s n <> None -> dbinv (fst (db_add w n s)).
Proof.
  intros OK I D L. split; [now apply inv_db_add|]. unfold db_add. destruct (s_db s) eqn:Db; [|intros E; exfalso; cbn in E; congruence].
  rewrite (proj1 (OK n)). cbn [fst]. intros _ m. change (jail_of (set_enabled _ s) m) with (jail_of s m). cbn [set_enabled s_enabled].
  assert (X : In m (if inb n (s_enabled s) then s_enabled s else s_enabled s ++ [n]) <-> In m (s_enabled s) \/ m = n).
  { destruct (inb n (s_enabled s)) eqn:E.
    - apply inb_In in E. split; [auto|]. intros [H| ->]; auto.
    - rewrite in_app_iff. cbn. intuition. }
  rewrite X. destruct (eqb_spec m n) as [->|N]; [intuition|]. rewrite (D eq_refl m N). tauto.
Qed.

Lemma dbinv_add w n b s : db_ok w -> dbinv s -> dbinv (fst (add_jail w n b s)).
Proof.
  intros OK DI. unfold add_jail.
  match goal with |- context [match ?x with (_, _) => _ end] => assert (H : dbinv (fst (fst x)) /\ (snd x = false -> jail_of (fst (fst x)) n <> None)) end.
  { destruct (dget n (s_reload s)) as [[|]|]; try (split; [exact DI|discriminate]).
    destruct (lookup s n) as [j|] eqn:L; [|split; [exact DI|discriminate]].
    destruct (eqb (j_backend j) b).
    - cbn [fst snd]. split.
      + destruct DI as [I D]. split; [|exact D]. apply inv_reload; [|exact I]. apply dwf_dset, I.
      + intros _. change (lookup s n <> None). congruence.
    - pose proof (dbinv_del w n true true s OK DI) as H1. destruct (del_jail w n true true s) as [s' [e|]]; cbn [fst snd] in *; (split; [|discriminate]).
      + exact H1.
      + destruct H1 as [I D]. split; [|exact D]. apply inv_reload; [|exact I]. apply dwf_ddel, I. }
  match goal with |- context [match ?x with (_, _) => _ end] => destruct x as [[s1 e1] flg] end.
  cbn [fst snd] in H. destruct H as [[I D] H]. destruct e1 as [e|]; [now split|]. destruct flg.
  - pose proof (inv_jails_add w n b s1 I) as I2. unfold jails_add in *. destruct (dmem n (s_jails s1)) eqn:M; [now split|].
    destruct (e_make w n b); [|now split]. cbn [fst] in I2. apply dbinv_dbadd; auto.
    + intros Db m N. change (s_enabled (note _ _)) with (s_enabled s1). change (s_db _) with (s_db s1) in Db.
      change (jail_of (note _ _) m) with (jail_of (put n (new_jail (s_next s1) b) s1) m). rewrite jail_of_put.
      apply eqb_neq in N. rewrite N. apply D, Db.
    + change (jail_of (note _ _) n) with (jail_of (put n (new_jail (s_next s1) b) s1) n). rewrite jail_of_put, eqb_refl. discriminate.
  - apply dbinv_dbadd; auto.
Qed.

Lemma dbinv_start w n s : dbinv s -> dbinv (fst (start_jail w n s)).
Proof.
  intros [I D]. split; [now apply inv_start|].
  assert (X : forall m, (jail_of (fst (start_jail w n s)) m <> None <-> jail_of s m <> None)
     /\ s_enabled (fst (start_jail w n s)) = s_enabled s /\ s_db (fst (start_jail w n s)) = s_db s).
  { intros m. unfold start_jail. destruct (lookup s n) as [j|] eqn:L; [|tauto].
    assert (PUT : forall i x, (forall k, jail_of x k <> None <-> jail_of s k <> None) -> (jail_of (put n i x) m <> None <-> jail_of s m <> None)).
    { intros i x H. rewrite jail_of_put. destruct (eqb_spec m n) as [->|]; [|apply H]. unfold jail_of. unfold lookup in L. rewrite L. split; discriminate. }
    destruct (negb (is_alive j)).
    - destruct (jail_start w n j) as [j' e].
      assert (P0 : forall k, jail_of (put n j' s) k <> None <-> jail_of s k <> None).
      { intros k. rewrite jail_of_put. destruct (eqb_spec k n) as [->|]; [|tauto]. unfold jail_of. unfold lookup in L. rewrite L. split; discriminate. }
      destruct e as [e|], (is_alive j'); cbn [fst].
      + split; [exact (P0 m)|split; reflexivity].
      + split; [exact (P0 m)|split; reflexivity].
      + destruct (j_idle j'); [split; [|split; reflexivity]|split; [exact (P0 m)|split; reflexivity]]. apply PUT. exact P0.
      + destruct (j_idle j'); [split; [|split; reflexivity]|split; [exact (P0 m)|split; reflexivity]]. apply PUT. exact P0.
    - destruct (dmem n (s_reload s)); cbn [fst]; destruct (j_idle j); try (split; [|split; reflexivity]); try reflexivity; apply PUT; intros k; reflexivity. }
  intros Db m. destruct (X m) as (X1 & X2 & X3). rewrite X2. rewrite X3 in Db. rewrite X1. now apply D.
Qed.

Lemma dbinv_begin w n s : dbinv s -> dbinv (fst (begin_one w n s)).
Proof.
  intros [I D]. split; [now apply inv_begin|]. unfold begin_one. destruct (lookup s n) as [j|] eqn:L; [|exact D].
  cbv zeta. unfold jail_of in *. unfold lookup in L.
  destruct (e_begin w n); cbn [fst put set_jails set_reload s_jails s_db s_enabled]; intros Db m; rewrite !dget_dset; rewrite (D Db);
    (destruct (eqb_spec m n) as [->|]; [rewrite L; split; discriminate|reflexivity]).
Qed.

Lemma dbinv_commit w n s : dbinv s -> dbinv (fst (commit_one w n s)).
Proof.
  intros [I D]. split; [now apply inv_commit|]. unfold commit_one. destruct (lookup s n) as [j|] eqn:L; [|exact D].
  destruct (e_end w n); [|exact D]. unfold jail_of in *. unfold lookup in L.
  cbn [fst put set_jails set_reload s_jails s_db s_enabled]; intros Db m; rewrite !dget_dset; rewrite (D Db);
    (destruct (eqb_spec m n) as [->|]; [rewrite L; split; discriminate|reflexivity]).
Qed.

Lemma dbinv_handler w c s : db_ok w -> dbinv s -> dbinv (fst (handler w c s)).
Proof.
  intros OK. apply handler_pres; auto using dbinv_del, dbinv_add, dbinv_start, dbinv_begin, dbinv_commit.
  - intros q x [I D]. split; [now apply inv_quiet|exact D].
  - intros x [I D]. split; [apply inv_reload; [constructor|exact I]|exact D].
  - intros. apply command_set_pres; auto. intros. eapply dbinv_put; eauto.
  - intros. apply set_unban_pres; auto. intros. eapply dbinv_put; eauto.
Qed.

Lemma dbinv_step s o : op_env db_ok o -> dbinv s -> dbinv (fst (sv_step s o)).
Proof.
  intros OK DI. pose proof (inv_step s o (proj1 DI)) as I'. split; [exact I'|].
  destruct o as [w c|n f|n|n ip|n ip]; cbn [sv_step] in *.
  { unfold proceed. pose proof (dbinv_handler w c s OK DI) as [_ H]. destruct (handler w c s) as [s' [v|e]]; exact H. }
  all: destruct DI as [I D]; cbn [fst]; destruct (lookup s n) as [j|] eqn:L; [|exact D]; intros Db m;
    rewrite jail_of_put; change (s_enabled (put n _ s)) with (s_enabled s); rewrite (D Db);
    (destruct (eqb_spec m n) as [->|]; [unfold jail_of; unfold lookup in L; rewrite L; split; discriminate|reflexivity]).
Qed.

Lemma dbinv_run ops : forall s, Forall (op_env db_ok) ops -> dbinv s -> dbinv (sv_run s ops).
Proof. induction ops as [|o r IH]; intros s F I; [exact I|]. inversion F; subst. apply IH; [assumption|]. now apply dbinv_step. Qed.

Lemma dbinv_init db : dbinv (srv_init db).
Proof. split; [apply inv_init|]. cbn. intros _ m. split; [tauto|]. intros H. now elim H. Qed.

(** ** The names *)
Lemma names_put n j i s : lookup s n = Some i -> names (put n j s) = names s.
Proof. intros L. unfold names, put, set_jails. cbn [s_jails]. change (map fst) with (@dkeys string jail). apply dkeys_dset_mem. eapply dget_key, L. Qed.

Lemma names_start w n s : names (fst (start_jail w n s)) = names s.
Proof.
  unfold start_jail. destruct (lookup s n) as [j|] eqn:L; [|reflexivity].
  assert (P : forall i x, names x = names s -> names (put n i x) = names s).
  { intros i x E. rewrite <- E. unfold names in *. assert (exists k, lookup x n = Some k) as [k Lk].
    { unfold lookup. apply dget_ex. unfold dkeys. rewrite E. eapply dget_key. exact L. }
    change (names (put n i x) = names x). eapply names_put. exact Lk. }
  destruct (negb (is_alive j)).
  - destruct (jail_start w n j) as [j' e]. assert (E1 : names (put n j' s) = names s) by (now apply P).
    destruct e as [e|], (is_alive j'); cbn [fst]; try exact E1; destruct (j_idle j'); try exact E1; now apply P.
  - destruct (dmem n (s_reload s)); cbn [fst]; destruct (j_idle j); try reflexivity; now apply P.
Qed.

Lemma names_set w m args s : names (fst (command_set w m args s)) = names s.
Proof.
  destruct (command_set_shape w m args s) as [->|(n & j & j' & r & _ & L & -> & _)]; [reflexivity|]. eapply names_put, L.
Qed.

Lemma names_unban w n ips b s : names (fst (set_unban w n ips b s)) = names s.
Proof.
  apply (set_unban_pres (fun x => names x = names s)); [|reflexivity]. intros k j j' x E L _. rewrite <- E. eapply names_put, L.
Qed.

Lemma names_del w n s j : inv s -> db_ok w -> jail_of s n = Some j ->
  exists s', del_jail w n true true s = (s', None) /\ names s' = filter (fun m => negb (eqb m n)) (names s).
Proof.
  intros I OK L. unfold del_jail. change (lookup s n) with (jail_of s n). rewrite L. cbn [orb]. cbv zeta.
  assert (N : forall db en, names (MkSrv (ddel n (dset n (jail_stop true true j) (s_jails s))) (s_reload s) (s_quiet s) (s_next s)
      db en (s_events s ++ [Stopped (j_no j)])) = filter (fun m => negb (eqb m n)) (names s)).
  { intros db en. unfold names. cbn [s_jails]. rewrite ddel_filter by apply dwf_dset, I.
    assert (E : map fst (dset n (jail_stop true true j) (s_jails s)) = map fst (s_jails s)) by (eapply (names_put n (jail_stop true true j) j s), L).
    rewrite <- E. clear. induction (dset n _ _) as [|[k v] r IH]; [reflexivity|]. cbn [filter map fst].
    assert (X : eqb n k = eqb k n). { destruct (eqb_spec n k) as [->|]; [now rewrite eqb_refl|]. symmetry. apply eqb_neq. congruence. }
    rewrite ?X. destruct (eqb k n); cbn [negb map fst]; now rewrite IH. }
  cbn [note put set_jails s_db]. destruct (s_db s).
  - rewrite (proj2 (OK n)). eexists. split; [reflexivity|]. apply N.
  - eexists. split; [reflexivity|]. apply N.
Qed.

Lemma names_add w n b s : s_reload s = [] -> db_ok w ->
  names (fst (add_jail w n b s)) = match snd (add_jail w n b s) with None => names s ++ [n] | Some _ => names s end.
Proof.
  intros R OK. unfold add_jail. rewrite R. cbn [dget]. unfold jails_add.
  destruct (dmem n (s_jails s)) eqn:M; [reflexivity|]. destruct (e_make w n b); [|reflexivity].
  assert (N : names (put n (new_jail (s_next s) b) s) = names s ++ [n]).
  { unfold names, put, set_jails. cbn [s_jails]. change (map fst) with (@dkeys string jail). rewrite dkeys_dset. now rewrite M. }
  unfold db_add. destruct (s_db _); [rewrite (proj1 (OK n))|]; exact N.
Qed.

Lemma dict_empty (s : srv) : (forall n, jail_of s n = None) -> names s = [].
Proof.
  unfold names, jail_of. destruct (s_jails s) as [|[k v] r]; [reflexivity|]. intros H. specialize (H k). cbn in H.
  rewrite eqb_refl in H. discriminate.
Qed.

Lemma registry_simple w c s : simple c -> s_reload s = [] -> inv s -> db_ok w ->
  names (fst (proceed w c s)) = registry_after (names s) (c, snd (proceed w c s)).
Proof.
  intros S R I OK. unfold proceed.
  destruct c as [t|[|[k|x] args]]; [reflexivity|reflexivity| |reflexivity].
  destruct S as [S1 S2].
  destruct (eqb_spec k "add") as [->|NA].
  { destruct args as [|[n|l] r]; [reflexivity| |reflexivity].
    change (handler w (A (T "add" :: T n :: r)) s) with
        (if eqb n all_jails then (s, Bad EReserved)
         else match r with [] => done (add_jail w n "auto" s) (VTxt n) | T b :: _ => done (add_jail w n b s) (VTxt n) | A _ :: _ => (s, Bad EType) end).
    destruct (eqb n all_jails); [reflexivity|].
    destruct r as [|[b|] r]; [pose proof (names_add w n "auto" s R OK) as H; destruct (add_jail w n "auto" s) as [s' [e|]]
      |pose proof (names_add w n b s R OK) as H; destruct (add_jail w n b s) as [s' [e|]]|reflexivity]; cbn [fst snd done] in *; exact H. }
  destruct (eqb_spec k "stop") as [->|NS].
  { assert (SA : names (fst (match done (stop_all w s) VNone with (s', Good v) => (s', (0, Good v)) | (s', Bad e) => (s', (1, Bad e)) end)) = []
      /\ fst (snd (match done (stop_all w s) VNone with (s', Good v) => (s', (0, Good v)) | (s', Bad e) => (s', (1, Bad e)) end)) = 0).
    { destruct (stop_all_ok w s (fun n => proj2 (OK n)) I) as (s' & E & J & _). rewrite E. cbn. split; [now apply dict_empty|reflexivity]. }
    destruct args as [|[n|l] r]; [| |reflexivity].
    - change (handler w (A [T "stop"]) s) with (done (stop_all w s) VNone).
      destruct (match done (stop_all w s) VNone with (s', Good v) => (s', (0, Good v)) | (s', Bad e) => (s', (1, Bad e)) end) as [s' [z a]].
      cbn [fst snd] in *. destruct SA as [-> ->]. reflexivity.
    - change (handler w (A (T "stop" :: T n :: r)) s) with
        (if eqb n all_jails then done (stop_all w s) VNone else done (stop_jail w n s) VNone).
      unfold registry_after. change (eqb "stop" "add") with false. change (eqb "stop" "stop") with true. cbv iota.
      change "--all" with all_jails.
      destruct (eqb n all_jails).
      + destruct (match done (stop_all w s) VNone with (s', Good v) => (s', (0, Good v)) | (s', Bad e) => (s', (1, Bad e)) end) as [s' [z a]].
        cbn [fst snd] in *. destruct SA as [-> ->]. reflexivity.
      + unfold stop_jail. destruct (jail_of s n) as [j|] eqn:L.
        * destruct (names_del w n s j I OK L) as (s' & E & N). rewrite E. exact N.
        * unfold del_jail. change (lookup s n) with (jail_of s n). rewrite L. reflexivity. }
  assert (NC : forall x, registry_after (names s) (A (T k :: args), x) = names s).
  { intros [z a]. unfold registry_after. apply eqb_neq in NA, NS. rewrite NA, NS. now destruct z. }
  rewrite NC.
  assert (E : names (fst (handler w (A (T k :: args)) s)) = names s).
  2: { destruct (handler w (A (T k :: args)) s) as [s' [v|e]]; exact E. }
  cbn [handler].
  destruct (eqb k "ping"); [reflexivity|].
  apply eqb_neq in NA, NS, S1, S2. rewrite NA, NS, S1, S2.
  destruct (eqb k "multi-set"); [apply names_set|]. destruct (eqb k "set"); [apply names_set|].
  destruct (eqb k "start").
  { destruct args as [|[n|l] r]; [reflexivity| |reflexivity]. rewrite done_fst. apply names_start. }
  destruct (eqb k "unban" && _).
  { destruct (match args with [T t] => _ | _ => _ end); [apply names_unban|]. destruct (texts args); [apply names_unban|reflexivity]. }
  destruct (eqb k "banned"); [reflexivity|]. destruct (eqb k "echo"); [reflexivity|]. destruct (eqb k "server-status"); [reflexivity|].
  destruct (eqb k "get"); [reflexivity|]. destruct (eqb k "status" && _); [reflexivity|]. destruct (inb k _); reflexivity.
Qed.

(** Simple commands begin no reload. *)
Lemma simple_reload w c s : simple c -> s_reload s = [] -> s_reload (fst (handler w c s)) = [].
Proof.
  intros S R. apply (handler_simple_pres w (fun x => s_reload x = [])); auto.
  - intros n a b x H. unfold del_jail. destruct (lookup x n) as [j|]; [|exact H]. cbv zeta.
    destruct (b || is_alive j), b; try (destruct (s_db _); [destruct (e_dbdel w n)|]); exact H.
  - intros n b x H. unfold add_jail. rewrite H. cbn [dget]. unfold jails_add, db_add.
    destruct (dmem n (s_jails x)); [exact H|]. destruct (e_make w n b); [|exact H].
    destruct (s_db _); [destruct (e_dbadd w n)|]; exact H.
  - intros n x H. unfold start_jail. destruct (lookup x n) as [j|]; [|exact H]. rewrite H. cbn [dmem dget].
    destruct (negb (is_alive j)).
    + destruct (jail_start w n j) as [j' [e|]], (is_alive j'); try exact H; destruct (j_idle j'); exact H.
    + destruct (j_idle j); exact H.
  - intros m args x H. apply command_set_pres; [|exact H]. intros; assumption.
  - intros n ips b x H. apply set_unban_pres; [|exact H]. intros; assumption.
Qed.

(** ** The names of a configuration *)
Lemma names_config w c s s' v : config_command c -> s_reload s = [] -> db_ok w -> handler w c s = (s', Good v) ->
  names s' = names s ++ added [c] /\ s_reload s' = [].
Proof.
  intros C R OK E. assert (SI : simple c).
  { destruct C as [(n & r & ->)|[(n & r & ->)|[(m & n & k & vs & -> & [-> | ->] & _)|[(r & ->)|(n & x & -> & _)]]]]; cbn; split; discriminate. }
  pose proof (simple_reload w c s SI R) as R'. rewrite E in R'. split; [|exact R'].
  assert (NN : forall x : srv * res, x = (s', Good v) -> names (fst x) = names s -> names s' = names s ++ []).
  { intros x -> H. now rewrite app_nil_r. }
  destruct C as [(n & r & ->)|[(n & r & ->)|[(m & n & k & vs & -> & [-> | ->] & _)|[(r & ->)|(n & x & -> & _)]]]].
  - change (handler w (A (T "add" :: T n :: r)) s) with
        (if eqb n all_jails then (s, Bad EReserved)
         else match r with [] => done (add_jail w n "auto" s) (VTxt n) | T b :: _ => done (add_jail w n b s) (VTxt n) | A _ :: _ => (s, Bad EType) end) in E.
    destruct (eqb n all_jails); [discriminate|].
    change (added [A (T "add" :: T n :: r)]) with [n].
    destruct r as [|[b|] r]; [pose proof (names_add w n "auto" s R OK) as H; destruct (add_jail w n "auto" s) as [s1 [e|]]
      |pose proof (names_add w n b s R OK) as H; destruct (add_jail w n b s) as [s1 [e|]]|]; try discriminate; injection E as <- _; exact H.
  - eapply NN; [exact E|]. change (handler w (A (T "start" :: T n :: r)) s) with (done (start_jail w n s) VNone). rewrite done_fst. apply names_start.
  - eapply NN; [exact E|]. apply names_set.
  - eapply NN; [exact E|]. apply names_set.
  - eapply NN; [exact E|]. reflexivity.
  - eapply NN; [exact E|]. apply names_set.
Qed.

Lemma names_stream w cs : Forall config_command cs -> db_ok w -> forall s s', s_reload s = [] -> stream w cs s = (s', None) ->
  names s' = names s ++ added cs.
Proof.
  intros F OK. induction F as [|c r C F IH]; intros s s' R E.
  - injection E as ->. now rewrite app_nil_r.
  - rewrite stream_cons in E. destruct (handler w c s) as [s1 [v|e]] eqn:H; [|discriminate].
    destruct (names_config w c s s1 v C R OK H) as [N1 R1]. rewrite (IH s1 s' R1 E), N1, <- app_assoc. f_equal.
    unfold added. cbn [flat_map]. now rewrite app_nil_r.
Qed.

(** ** Unbanning *)
Lemma remove1_filter x l : NoDup l -> remove1 x l = filter (fun y => negb (eqb x y)) l.
Proof.
  induction l as [|y r IH]; intros N; [reflexivity|]. inversion N; subst. cbn. destruct (eqb_spec x y) as [->|Nx]; cbn [negb].
  - symmetry. clear - H1. induction r as [|z r IH]; [reflexivity|]. cbn. destruct (eqb_spec y z) as [->|]; cbn; [exfalso; apply H1; now left|].
    rewrite IH; [reflexivity|]. intros H. apply H1. now right.
  - now rewrite IH.
Qed.

Lemma filter_none {X} (f : X -> bool) l : filter f l = [] -> filter (fun y => negb (f y)) l = l.
Proof. induction l as [|x r IH]; cbn; [reflexivity|]. destruct (f x); cbn; [discriminate|]. intros H. now rewrite IH. Qed.

Lemma filter_count {X} (f : X -> bool) l : Z.of_nat (length (filter f l)) = Z.of_nat (length l) - Z.of_nat (length (filter (fun y => negb (f y)) l)).
Proof. induction l as [|x r IH]; [reflexivity|]. cbn [filter length]. destruct (f x); cbn [negb length]; lia. Qed.

Definition one_left (w : env) (x : string) (l : list string) : list string := filter (fun y => negb (hit w x l y)) l.

Lemma unban1_spec w b x l : NoDup l ->
  unban1 w b x l = (one_left w x l, if b || existsb (hit w x l) l then Some (count l - count (one_left w x l)) else None).
Proof.
  intros N. unfold unban1, one_left, hit, count. destruct (inb x l) eqn:E.
  - rewrite remove1_filter by exact N. apply inb_In in E. f_equal.
    assert (X : existsb (eqb x) l = true). { apply existsb_exists. exists x. split; [exact E|apply eqb_refl]. }
    change (existsb (fun y => eqb x y) l) with (existsb (eqb x) l). rewrite X, orb_true_r. f_equal.
    assert (C : Z.of_nat (length (filter (eqb x) l)) = 1).
    { clear X b. induction l as [|y r IH]; [contradiction|]. inversion N; subst. cbn [filter]. destruct (eqb_spec x y) as [->|Nx].
      - cbn [length]. assert (Z0 : filter (eqb y) r = []).
        { clear - H1. induction r as [|z r IH]; [reflexivity|]. cbn. destruct (eqb_spec y z) as [->|]; [exfalso; apply H1; now left|].
          apply IH. intros H. apply H1. now right. }
        now rewrite Z0.
      - apply IH; [assumption|]. destruct E as [->|E]; [congruence|exact E]. }
    rewrite (filter_count (eqb x) l) in C. lia.
  - change (existsb (fun y => e_in w x y) l) with (existsb (e_in w x) l).
    destruct (filter (e_in w x) l) as [|z r] eqn:F.
    + rewrite (filter_none _ _ F). assert (X : existsb (e_in w x) l = false).
      { destruct (existsb (e_in w x) l) eqn:X; [|reflexivity]. apply existsb_exists in X as (y & Y1 & Y2).
        assert (H : In y (filter (e_in w x) l)) by (apply filter_In; auto). rewrite F in H. destruct H. }
      rewrite X, orb_false_r. destruct b; [|reflexivity]. now rewrite Z.sub_diag.
    + assert (X : existsb (e_in w x) l = true).
      { apply existsb_exists. exists z. assert (H : In z (filter (e_in w x) l)) by (rewrite F; now left). now apply filter_In in H. }
      rewrite X, orb_true_r. rewrite <- F, filter_count. reflexivity.
Qed.

Fixpoint misses (w : env) (ips l : list string) : bool :=
  match ips with [] => false | x :: r => negb (existsb (hit w x l) l) || misses w r (one_left w x l) end.

Lemma unban_list_spec w b ips : forall l c m, NoDup l ->
  fst (unban_list w b ips l c m) = left_over w ips l
  /\ (b = true -> m = false -> snd (unban_list w b ips l c m) = Some (c + count l - count (left_over w ips l)))
  /\ (b = false -> (snd (unban_list w b ips l c m) = None <-> m || misses w ips l = true)
       /\ (m || misses w ips l = false -> snd (unban_list w b ips l c m) = Some (c + count l - count (left_over w ips l)))).
Proof.
  induction ips as [|x r IH]; intros l c m N.
  - cbn. split; [reflexivity|]. split; [intros _ ->; f_equal; lia|]. intros _. rewrite orb_false_r. destruct m; split; try tauto.
    + discriminate.
    + split; discriminate.
    + intros _. f_equal; lia.
  - cbn [unban_list]. rewrite unban1_spec by exact N.
    assert (N1 : NoDup (one_left w x l)) by (apply NoDup_filter_str, N).
    assert (LE : left_over w (x :: r) l = left_over w r (one_left w x l)) by reflexivity. rewrite LE. cbn [misses].
    destruct (b || existsb (hit w x l) l) eqn:B.
    + destruct (IH (one_left w x l) (c + (count l - count (one_left w x l))) m N1) as (H1 & H2 & H3).
      split; [exact H1|]. split; [intros Hb Hm; rewrite H2 by assumption; f_equal; lia|].
      intros Hb. subst b. cbn [orb] in B. rewrite B. cbn [negb orb]. destruct (H3 eq_refl) as [H4 H5]. split; [exact H4|].
      intros Hm. rewrite H5 by exact Hm. f_equal. lia.
    + apply orb_false_iff in B as [-> B]. rewrite B. cbn [negb orb].
      destruct (IH (one_left w x l) c true N1) as (H1 & _ & H3). destruct (H3 eq_refl) as [H4 _]. split; [exact H1|].
      split; [discriminate|]. intros _. rewrite orb_true_r. split; [|discriminate]. rewrite H4. reflexivity.
Qed.

Lemma sum_app a b : sum (a ++ b) = sum a + sum b.
Proof. induction a as [|x r IH]; cbn; [reflexivity|]. rewrite IH. lia. Qed.

Definition bans_at (s : srv) (n : string) : list string := match jail_of s n with Some j => j_bans j | None => [] end.

Lemma total_bans_names s : dwf (s_jails s) -> total_bans s = sum (map (fun n => count (bans_at s n)) (names s)).
Proof.
  unfold total_bans, names, bans_at, jail_of. intros W. rewrite map_map. f_equal. apply map_ext_in. intros [n j] H. cbn [fst snd].
  now rewrite (In_dget n j (s_jails s) W H).
Qed.

Lemma unban_in_spec w ips l : (forall b b' (x : option Z), NoDup b -> remove_banned w true ips b = (b', x) -> x = Some (count b - count b')) ->
  forall s c, inv s -> NoDup l -> (forall n, In n l -> exists j, jail_of s n = Some j) ->
  exists s', unban_in w true ips l s c = (s', Good (VNum (c + sum (map (fun n => count (bans_at s n) - count (bans_at s' n)) l)))) /\ inv s'
    /\ (forall n, jail_of s' n = if inb n l then option_map (fun j => with_bans (fst (remove_banned w true ips (j_bans j))) j) (jail_of s n) else jail_of s n)
    /\ same_rest s s' /\ s_events s' = s_events s /\ s_enabled s' = s_enabled s.
Proof.
  intros G. induction l as [|m r IH]; intros s c I N X.
  - exists s. split; [cbn; do 3 f_equal; lia|]. split; [exact I|]. repeat split; auto.
  - inversion N as [|? ? Nm Nr]; subst. cbn [unban_in]. destruct (X m (or_introl eq_refl)) as [j L].
    change (lookup s m) with (jail_of s m). rewrite L.
    pose proof (i_logs s I m j L) as (_ & _ & _ & NB).
    pose proof (G (j_bans j)) as Gj. pose proof (NoDup_remove_banned w true ips (j_bans j) NB) as NB'.
    destruct (remove_banned w true ips (j_bans j)) as [b' x] eqn:RB. rewrite (Gj b' x NB eq_refl). cbn [fst] in NB'.
    destruct (IH (put m (with_bans b' j) s) (c + (count (j_bans j) - count b'))) as (s' & E & I' & J & R & V & B); auto.
    { apply (inv_tweak s m j); auto. now apply tweak_bans. }
    { intros n H. rewrite jail_of_put. destruct (eqb n m); [eauto|]. apply X. now right. }
    assert (J' : forall n, jail_of s' n = if inb n (m :: r) then option_map (fun i => with_bans (fst (remove_banned w true ips (j_bans i))) i) (jail_of s n) else jail_of s n).
    { intros n. rewrite J, jail_of_put. cbn [inb existsb]. unfold inb in *. destruct (eqb_spec n m) as [->|Nn]; [|reflexivity].
      apply inb_false in Nm. unfold inb in Nm. rewrite Nm, L. cbn. now rewrite RB. }
    exists s'. split; [|split; [exact I'|]; split; [exact J'|]; split; [exact R|auto]].
    rewrite E. do 3 f_equal. cbn [map sum].
    assert (E1 : count (bans_at s m) - count (bans_at s' m) = count (j_bans j) - count b').
    { unfold bans_at. rewrite J', L. cbn [inb existsb]. rewrite eqb_refl. cbn. now rewrite RB. }
    rewrite E1. rewrite Z.add_assoc. f_equal. f_equal. apply map_ext_in. intros n Hn. f_equal. f_equal. unfold bans_at. rewrite jail_of_put.
    destruct (eqb_spec n m) as [->|]; [contradiction|reflexivity].
Qed.

Lemma sum_sub {X} (f g : X -> Z) l : sum (map (fun x => f x - g x) l) = sum (map f l) - sum (map g l).
Proof. induction l as [|x r IH]; cbn; [reflexivity|]. rewrite IH. lia. Qed.

Lemma unban_everywhere w ips s : inv s ->
  exists s', set_unban w None ips true s = (s', Good (VNum (total_bans s - total_bans s')))
    /\ inv s' /\ but_bans (fun l => match ips with None => [] | Some x => left_over w x l end) s s'
    /\ same_rest s s' /\ s_events s' = s_events s /\ s_enabled s' = s_enabled s.
Proof.
  intros I. unfold set_unban.
  destruct (unban_in_spec w ips (dkeys (s_jails s))) with (s := s) (c := 0) as (s' & E & I' & J & R); auto.
  { intros b b' x N H. destruct ips as [l|].
    - destruct (unban_list_spec w true l b 0 false N) as (H1 & H2 & _). cbn [remove_banned] in H. rewrite H in *. cbn [fst snd] in *.
      rewrite H2 by reflexivity. subst b'. f_equal; lia.
    - cbn in H. injection H as <- <-. unfold count. cbn. f_equal. lia. }
  { apply I. }
  { intros n H. now apply dget_ex. }
  assert (J' : forall n, jail_of s' n = option_map (fun j => with_bans (fst (remove_banned w true ips (j_bans j))) j) (jail_of s n)).
  { intros n. rewrite J, inb_names. now destruct (jail_of s n). }
  exists s'. split; [|split; [exact I'|split; [|exact R]]].
  - rewrite E. do 3 f_equal. rewrite (total_bans_names s (i_wf s I)), (total_bans_names s' (i_wf s' I')), Z.add_0_l.
    assert (NN : names s' = names s).
    { pose proof (names_unban w None ips true s) as H. unfold set_unban in H. rewrite E in H. exact H. }
    rewrite NN. apply (sum_sub (fun n => count (bans_at s n)) (fun n => count (bans_at s' n))).
  - intros n. rewrite J'. destruct (jail_of s n) as [j|] eqn:L; [|reflexivity]. cbn. do 2 f_equal.
    destruct ips as [l|]; [|reflexivity]. cbn [remove_banned]. pose proof (i_logs s I n j L) as (_ & _ & _ & NB).
    apply (unban_list_spec w true l (j_bans j) 0 false NB).
Qed.

Lemma left_over_incl w ips : forall l y, In y (left_over w ips l) -> In y l.
Proof.
  induction ips as [|x r IH]; intros l y H; [exact H|]. apply IH in H. apply filter_In in H. tauto.
Qed.

Lemma left_over_gone w ips : forall l x, In x ips -> ~ In x (left_over w ips l).
Proof.
  induction ips as [|z r IH]; intros l x H; [destruct H|]. destruct H as [->|H]; [|apply IH, H].
  intros H. change (In x (left_over w r (one_left w x l))) in H. apply left_over_incl in H. apply filter_In in H as [H1 H2]. unfold hit in H2. assert (E : inb x l = true) by (now apply inb_In).
  rewrite E, eqb_refl in H2. discriminate.
Qed.

Lemma texts_map l : texts (map T l) = Some l.
Proof. induction l as [|x r IH]; [reflexivity|]. cbn. now rewrite IH. Qed.

Lemma handler_unban w ips s : ips <> [] -> ips <> ["--all"] -> handler w (unban ips) s = set_unban w None (Some ips) true s.
Proof.
  intros N1 N2. unfold unban. destruct ips as [|x r]; [congruence|]. cbn [map].
  change (handler w (A (T "unban" :: T x :: map T r)) s) with
    (if match T x :: map T r with [T t] => eqb t all_jails | _ => false end then set_unban w None None true s
     else match texts (T x :: map T r) with None => (s, Bad EType) | Some l => set_unban w None (Some l) true s end).
  destruct r as [|y r]; cbn [map].
  - destruct (eqb_spec x all_jails) as [->|]; [now elim N2|]. reflexivity.
  - change (T x :: T y :: map T r) with (map T (x :: y :: r)). now rewrite texts_map.
Qed.

Lemma ban_list_spec ips : forall l c l' c', NoDup l -> ban_list ips l c = (l', c') ->
  (forall y, In y l' <-> In y l \/ In y ips) /\ c' = c + count l' - count l /\ exists r, l' = l ++ r.
Proof.
  induction ips as [|x r IH]; intros l c l' c' N E; cbn [ban_list] in E.
  - injection E as <- <-. split; [cbn; tauto|]. split; [lia|]. exists []. now rewrite app_nil_r.
  - destruct (inb x l) eqn:I.
    + apply inb_In in I. destruct (IH l c l' c' N E) as (H1 & H2 & H3). split; [|auto]. intros y. rewrite H1. cbn.
      intuition. subst; auto.
    + apply inb_false in I. destruct (IH (l ++ [x]) (c + 1) l' c') as (H1 & H2 & (q & H3)); auto.
      { now apply NoDup_snoc. }
      split; [intros y; rewrite H1, in_app_iff; cbn; tauto|]. split.
      * rewrite H2. unfold count. rewrite app_length. cbn. lia.
      * exists ([x] ++ q). now rewrite H3, <- app_assoc.
Qed.

(** ** Whether there is a database stays the same *)
Lemma handler_db w c x : s_db (fst (handler w c x)) = s_db x.
Proof.
  apply (handler_pres w (fun y => s_db y = s_db x)); auto.
  - intros n a b y H. rewrite <- H. unfold del_jail. destruct (lookup y n) as [j|]; [|reflexivity]. cbv zeta.
    destruct (b || is_alive j), b; cbn; try reflexivity; destruct (s_db y) eqn:E; try destruct (e_dbdel w n); cbn; congruence.
  - intros n b y H. rewrite <- H. unfold add_jail.
    assert (D1 : forall z, s_db (fst (del_jail w n true true z)) = s_db z).
    { intros z. unfold del_jail. destruct (lookup z n) as [j|]; [|reflexivity]. cbv zeta. cbn [orb].
      cbn. destruct (s_db z) eqn:E; try destruct (e_dbdel w n); cbn; congruence. }
    assert (D2 : forall z, s_db (fst (jails_add w n b z)) = s_db z).
    { intros z. unfold jails_add. destruct (dmem n (s_jails z)); [reflexivity|]. now destruct (e_make w n b). }
    assert (D3 : forall z, s_db (fst (db_add w n z)) = s_db z).
    { intros z. unfold db_add. destruct (s_db z) eqn:E; [|exact E]. destruct (e_dbadd w n); exact E. }
    match goal with |- context [match ?q with (_, _) => _ end] => assert (X : s_db (fst (fst q)) = s_db y) end.
    { destruct (dget n (s_reload y)) as [[|]|]; try reflexivity. destruct (lookup y n) as [j|]; [|reflexivity].
      destruct (eqb (j_backend j) b); [reflexivity|]. specialize (D1 y). destruct (del_jail w n true true y) as [z [e|]]; exact D1. }
    match goal with |- context [match ?q with (_, _) => _ end] => destruct q as [[s1 e1] flg] end. cbn [fst] in X.
    destruct e1; [exact X|]. destruct flg.
    + specialize (D2 s1). destruct (jails_add w n b s1) as [s2 [e|]]; cbn [fst] in *; [congruence|]. rewrite D3. congruence.
    + rewrite D3. exact X.
  - intros n y H. rewrite <- H. unfold start_jail. destruct (lookup y n) as [j|]; [|reflexivity].
    destruct (negb (is_alive j)).
    + destruct (jail_start w n j) as [j' [e|]], (is_alive j'); try reflexivity; destruct (j_idle j'); reflexivity.
    + destruct (dmem n (s_reload y)), (j_idle j); reflexivity.
  - intros m0 args y H. apply command_set_pres; auto.
  - intros n ips b y H. apply set_unban_pres; auto.
  - intros n y H. unfold begin_one. destruct (lookup y n); [|exact H]. cbv zeta. destruct (e_begin w n); exact H.
  - intros n y H. unfold commit_one. destruct (lookup y n); [|exact H]. destruct (e_end w n); exact H.
Qed.

Lemma run_db ops : forall x, s_db (sv_run x ops) = s_db x.
Proof.
  induction ops as [|o r IH]; intros x; [reflexivity|]. change (sv_run x (o :: r)) with (sv_run (fst (sv_step x o)) r). rewrite IH.
  destruct o as [w c|n f|n|n ip|n ip]; cbn [sv_step]; try (cbn [fst]; destruct (lookup x n); reflexivity).
  pose proof (handler_db w c x) as H. unfold proceed. destruct (handler w c x) as [s' [v|e]]; exact H.
Qed.
