(** Property C62: settings of jails by command, and the start and stop of one jail. *)
From Verif Require Import Base Server_Model Server_Spec Server_Proofs Server_Proofs2 Server_Proofs3 Server_Proofs4 Server_Proofs5 Server_Proofs6 Server_Props.
Open Scope string_scope.
Open Scope list_scope.
Open Scope Z_scope.

(** Only the jail [n] has changed, to [j]. *)
Record only_jail (n : string) (j : jail) (s s' : srv) : Prop := {
  oj_jails : forall m, jail_of s' m = if eqb m n then Some j else jail_of s m;
  oj_names : names s' = names s;
  oj_rest : s_reload s' = s_reload s /\ s_quiet s' = s_quiet s /\ s_next s' = s_next s /\ s_db s' = s_db s
            /\ s_enabled s' = s_enabled s /\ s_events s' = s_events s }.

Lemma only_put n j i s : jail_of s n = Some i -> only_jail n j s (put n j s).
Proof.
  intros L. constructor.
  - intros m. apply jail_of_put.
  - eapply names_put, L.
  - repeat split.
Qed.

Lemma set_unfold w n k vs s : ~ In n server_settings -> handler w (set n k vs) s = set_key w false n k (map T vs) s.
Proof.
  intros NS. unfold set. change (handler w (A (T "set" :: T n :: T k :: map T vs)) s) with (command_set w false (T n :: T k :: map T vs) s).
  unfold command_set. apply inb_false in NS. now rewrite NS.
Qed.

Definition setting (k : string) : Prop := In k value_settings \/ prefix "bantime." k = true.
Lemma setting_keys k : setting k ->
  eqb k "idle" = false /\ eqb k "addignoreip" = false /\ eqb k "delignoreip" = false /\ eqb k "addlogpath" = false /\ eqb k "dellogpath" = false /\
  eqb k "addfailregex" || eqb k "addignoreregex" = false /\ eqb k "delfailregex" || eqb k "delignoreregex" = false /\ is_value_setting k = true /\
  eqb k "banned" = false /\ eqb k "logpath" = false /\ eqb k "ignoreip" = false /\ eqb k "failregex" = false /\ eqb k "ignoreregex" = false /\ eqb k "banip" = false.
Proof.
  intros H.
  assert (N : forall x, inb x value_settings = false -> prefix "bantime." x = false -> eqb k x = false).
  { intros x A B. apply eqb_neq. intros ->. destruct H as [H|H]; [|congruence]. apply inb_In in H. congruence. }
  assert (V : is_value_setting k = true).
  { unfold is_value_setting. destruct H as [H|H]; [apply inb_In in H; now rewrite H|rewrite H; apply orb_true_r]. }
  rewrite V. rewrite !N by reflexivity. repeat split.
Qed.

(** A setting with one value: if the value is accepted, the jail has it, and has all other settings
    as before; it is answered when asked for. *)
Theorem C62_value : forall w n k v x s j, ~ In n server_settings -> jail_of s n = Some j -> setting k -> e_value w k v = Some x ->
  exists s' r d, proceed w (set n k [v]) s = (s', (0, Good r)) /\ only_jail n (with_opts d j) s s'
    /\ (forall k', dget k' d = if eqb k' k then Some x else dget k' (j_opts j))
    /\ proceed w (get n k []) s' = (s', (0, Good (VTxt x))).
Proof.
  intros w n k v x s j NS L K V. destruct (setting_keys k K) as (E1 & E2 & E3 & E4 & E5 & E6 & E7 & E8 & E9 & E10 & E11 & E12 & E13 & E14).
  unfold proceed. rewrite set_unfold by exact NS. unfold set_key. cbn [map]. rewrite E1, E2, E3, E4, E5, E6, E7, E8, V.
  unfold on_jail. change (lookup s n) with (jail_of s n). rewrite L.
  exists (put n (with_opts (dset k x (j_opts j)) j) s). eexists. exists (dset k x (j_opts j)). split; [reflexivity|]. split; [eapply only_put, L|].
  split; [intros k'; apply dget_dset|]. unfold get. cbn [map].
  change (handler w (A (T "get" :: [T n; T k])) (put n (with_opts (dset k x (j_opts j)) j) s)) with
    (put n (with_opts (dset k x (j_opts j)) j) s, command_get w [T n; T k] (put n (with_opts (dset k x (j_opts j)) j) s)).
  unfold command_get. apply inb_false in NS. rewrite NS.
  change (lookup (put n (with_opts (dset k x (j_opts j)) j) s) n) with (jail_of (put n (with_opts (dset k x (j_opts j)) j) s) n).
  rewrite jail_of_put, eqb_refl, E9, E10, E11, E12, E13, E14, E8. cbn [with_opts j_opts]. now rewrite dget_dset_same.
Qed.

Lemma remove1_In p x l : NoDup l -> (In x (remove1 p l) <-> In x l /\ x <> p).
Proof.
  intros N. rewrite remove1_filter by exact N. rewrite filter_In. split; intros [H1 H2]; split; auto.
  - intros ->. rewrite eqb_refl in H2. discriminate.
  - apply eqb_neq in H2. destruct (eqb_spec p x) as [->|]; [rewrite eqb_refl in H2; discriminate|reflexivity].
Qed.

(** Log files: the path is then in the list, once, and the others are as before (for a jail that
    reads the journal there are none). *)
Theorem C62_addlogpath : forall db ops w n p j, let s := after db ops in ~ In n server_settings -> jail_of s n = Some j -> j_rlogs j = None ->
  exists s' r l, proceed w (set n "addlogpath" [p]) s = (s', (0, Good r)) /\ only_jail n (with_logs l None j) s s'
    /\ l = (if reads_files (j_backend j) && negb (inb p (j_logs j)) then j_logs j ++ [p] else j_logs j) /\ NoDup l.
Proof.
  intros db ops w n p j s NS L R. pose proof (i_logs s (inv_after db ops) n j L) as (ND & _).
  assert (SAME : with_logs (j_logs j) None j = j) by (destruct j; cbn in *; now rewrite R).
  assert (Q : exists r, handler w (set n "addlogpath" [p]) s = (put n (add_log p j) s, Good r)).
  { rewrite set_unfold by exact NS. cbn [map]. unfold set_key.
    change (eqb "addlogpath" "idle") with false. change (eqb "addlogpath" "addignoreip") with false. change (eqb "addlogpath" "delignoreip") with false.
    change (eqb "addlogpath" "addlogpath") with true. cbv iota. unfold on_jail. change (lookup s n) with (jail_of s n). rewrite L. eauto. }
  destruct Q as [r Q]. exists (put n (add_log p j) s), r. eexists. unfold proceed. rewrite Q. split; [reflexivity|].
  split; [|split; [reflexivity|]].
  - match goal with |- only_jail n ?x s _ => assert (E : add_log p j = x) end; [|rewrite E; eapply only_put, L].
    unfold add_log. rewrite R. destruct (reads_files (j_backend j)); cbn [negb andb]; [|now rewrite SAME].
    destruct (inb p (j_logs j)); cbn [negb]; [now rewrite SAME|reflexivity].
  - destruct (reads_files (j_backend j)); cbn [andb]; [|exact ND]. destruct (inb p (j_logs j)) eqn:I; cbn [negb]; [exact ND|].
    apply NoDup_snoc; [exact ND|]. now apply inb_false.
Qed.

Theorem C62_dellogpath : forall db ops w n p j, let s := after db ops in ~ In n server_settings -> jail_of s n = Some j ->
  exists s' r l, proceed w (set n "dellogpath" [p]) s = (s', (0, Good r)) /\ only_jail n (with_logs l (j_rlogs j) j) s s'
    /\ forall x, In x l <-> In x (j_logs j) /\ x <> p.
Proof.
  intros db ops w n p j s NS L. pose proof (i_logs s (inv_after db ops) n j L) as (ND & _ & SY & _).
  assert (Q : exists r, handler w (set n "dellogpath" [p]) s = (put n (del_log p j) s, Good r)).
  { rewrite set_unfold by exact NS. cbn [map]. unfold set_key.
    change (eqb "dellogpath" "idle") with false. change (eqb "dellogpath" "addignoreip") with false. change (eqb "dellogpath" "delignoreip") with false.
    change (eqb "dellogpath" "addlogpath") with false. change (eqb "dellogpath" "dellogpath") with true. cbv iota. unfold on_jail.
    change (lookup s n) with (jail_of s n). rewrite L. eauto. }
  destruct Q as [r Q]. exists (put n (del_log p j) s), r, (remove1 p (j_logs j)). unfold proceed. rewrite Q. split; [reflexivity|].
  split; [|intros x; now apply remove1_In].
  assert (E : del_log p j = with_logs (remove1 p (j_logs j)) (j_rlogs j) j); [|rewrite E; eapply only_put, L].
  unfold del_log. destruct (reads_files (j_backend j)) eqn:RF; cbn [negb]; [reflexivity|]. destruct (SY eq_refl) as [E1 E2]. destruct j; cbn in *. now subst.
Qed.

(** Expressions, and entries of the ignore list: those up to the first one refused are added at
    the end; if one is refused the answer is an error. *)
Definition accepted (okv : string -> bool) (vs : list string) : list string :=
  (fix go l := match l with [] => [] | v :: r => if okv v then v :: go r else [] end) vs.
Lemma add_each_spec okv : forall vs l, add_each okv vs l = (l ++ accepted okv vs, forallb okv vs).
Proof.
  induction vs as [|v r IH]; intros l; cbn [add_each accepted forallb].
  - now rewrite app_nil_r.
  - destruct (okv v); [|now rewrite app_nil_r]. rewrite IH. cbn [andb]. f_equal. rewrite <- app_assoc. reflexivity.
Qed.

Theorem C62_addregex : forall w n v s j, ~ In n server_settings -> jail_of s n = Some j ->
  (e_regex w v = true -> exists s' s'' r r',
     proceed w (set n "addfailregex" [v]) s = (s', (0, Good r)) /\ only_jail n (with_fail (j_fail j ++ [v]) j) s s' /\
     proceed w (set n "addignoreregex" [v]) s = (s'', (0, Good r')) /\ only_jail n (with_ignore (j_ignore j ++ [v]) j) s s'')
  /\ (e_regex w v = false -> exists s' s'',
     proceed w (set n "addfailregex" [v]) s = (s', (1, Bad EValue)) /\ only_jail n j s s' /\
     proceed w (set n "addignoreregex" [v]) s = (s'', (1, Bad EValue)) /\ only_jail n j s s'').
Proof.
  intros w n v s j NS L.
  assert (Q1 : handler w (set n "addfailregex" [v]) s =
    on_jail n s (fun j => let '(x, ok) := add_each (e_regex w) [v] (j_fail j) in (with_fail x j, if ok then None else Some EValue)) (fun j => VLst (j_fail j))).
  { rewrite set_unfold by exact NS. cbn [map]. unfold set_key.
    change (eqb "addfailregex" "idle") with false. change (eqb "addfailregex" "addignoreip") with false. change (eqb "addfailregex" "delignoreip") with false.
    change (eqb "addfailregex" "addlogpath") with false. change (eqb "addfailregex" "dellogpath") with false. change (eqb "addfailregex" "addfailregex") with true. cbn [orb]. cbv iota zeta.
    destruct (on_jail _ _ _ _) as [s' [r|e]]; reflexivity. }
  assert (Q2 : handler w (set n "addignoreregex" [v]) s =
    on_jail n s (fun j => let '(x, ok) := add_each (e_regex w) [v] (j_ignore j) in (with_ignore x j, if ok then None else Some EValue)) (fun j => VLst (j_ignore j))).
  { clear Q1. rewrite set_unfold by exact NS. cbn [map]. unfold set_key.
    change (eqb "addignoreregex" "idle") with false. change (eqb "addignoreregex" "addignoreip") with false. change (eqb "addignoreregex" "delignoreip") with false.
    change (eqb "addignoreregex" "addlogpath") with false. change (eqb "addignoreregex" "dellogpath") with false.
    change (eqb "addignoreregex" "addfailregex") with false. change (eqb "addignoreregex" "addignoreregex") with true. cbn [orb]. cbv iota zeta.
    destruct (on_jail _ _ _ _) as [s' [r|e]]; reflexivity. }
  unfold proceed. rewrite Q1, Q2. unfold on_jail. change (lookup s n) with (jail_of s n). rewrite L. rewrite !add_each_spec. cbn [accepted forallb]. split; intros E; rewrite E; cbn [andb].
  - eexists _, _, _, _. split; [reflexivity|]. split; [eapply only_put, L|]. split; [reflexivity|]. eapply only_put, L.
  - rewrite !app_nil_r. assert (X1 : with_fail (j_fail j) j = j) by (now destruct j). assert (X2 : with_ignore (j_ignore j) j = j) by (now destruct j). rewrite X1, X2.
    eexists _, _. split; [reflexivity|]. split; [eapply only_put, L|]. split; [reflexivity|]. eapply only_put, L.
Qed.

Theorem C62_addignoreip : forall w n vs s j, ~ In n server_settings -> jail_of s n = Some j -> vs <> [] ->
  exists s', only_jail n (with_ips (j_ips j ++ accepted (e_ip w) vs) j) s s' /\
    (forallb (e_ip w) vs = true -> exists r, proceed w (set n "addignoreip" vs) s = (s', (0, Good r))) /\
    (forallb (e_ip w) vs = false -> proceed w (set n "addignoreip" vs) s = (s', (1, Bad EValue))).
Proof.
  intros w n vs s j NS L NV.
  assert (Q : handler w (set n "addignoreip" vs) s = on_jail n s (fun j => let '(x, ok) := add_each (e_ip w) vs (j_ips j) in
                                      (with_ips x j, if ok then None else Some EValue)) (fun j => VLst (j_ips j))).
  { rewrite set_unfold by exact NS. unfold set_key.
    change (eqb "addignoreip" "idle") with false. change (eqb "addignoreip" "addignoreip") with true. cbv iota. rewrite texts_map. destruct vs; [congruence|reflexivity]. }
  unfold proceed. rewrite Q. unfold on_jail. change (lookup s n) with (jail_of s n). rewrite L, add_each_spec.
  eexists. split; [eapply only_put, L|]. split; intros E; rewrite E; eauto.
Qed.

(** delfailregex N, delignoreregex N: the expression with this index (from the end, if negative) is
    gone, the others keep their order; an index out of range changes nothing. *)
Lemma skipn_next {X} (x : X) b : forall m l, skipn m l = x :: b -> skipn (S m) l = b.
Proof.
  induction m as [|m IH]; intros l D.
  - cbn in D. now subst l.
  - destruct l as [|y l]; [discriminate|]. exact (IH l D).
Qed.
Lemma del_index_spec i l : exists a b, (l = a ++ b /\ del_index i l = a ++ b /\ (i < - Z.of_nat (length l) \/ Z.of_nat (length l) <= i))
  \/ exists x, l = a ++ x :: b /\ del_index i l = a ++ b /\ (Z.of_nat (length a) = i \/ Z.of_nat (length a) = i + Z.of_nat (length l) /\ i < 0).
Proof.
  unfold del_index. set (n := Z.of_nat (length l)). set (k := if i <? 0 then i + n else i).
  destruct ((0 <=? k) && (k <? n)) eqn:E.
  - apply andb_true_iff in E as [E1 E2]. apply Z.leb_le in E1. apply Z.ltb_lt in E2.
    assert (H : (Z.to_nat k < length l)%nat) by lia. pose proof (firstn_skipn (Z.to_nat k) l) as FS.
    destruct (skipn (Z.to_nat k) l) as [|x b] eqn:D.
    { apply (f_equal (@length _)) in D. rewrite skipn_length in D. cbn in D. lia. }
    exists (firstn (Z.to_nat k) l), b. right. exists x. split; [congruence|].
    assert (D' : skipn (S (Z.to_nat k)) l = b).
    { now apply skipn_next with x. }
    rewrite D'. split; [reflexivity|]. rewrite firstn_length, Nat.min_l by lia. unfold k in *.
    destruct (Z.ltb_spec i 0); [right|left]; lia.
  - exists l, []. left. rewrite app_nil_r. split; [reflexivity|]. split; [reflexivity|].
    apply andb_false_iff in E as [E|E]; [apply Z.leb_gt in E|apply Z.ltb_ge in E]; unfold k, n in *; destruct (Z.ltb_spec i 0); lia.
Qed.

Theorem C62_delregex : forall w n v i s j, ~ In n server_settings -> jail_of s n = Some j -> e_int w v = Some i ->
  exists s' l r, proceed w (set n "delfailregex" [v]) s = (s', (0, Good r)) /\ only_jail n (with_fail l j) s s' /\
    exists a b, (j_fail j = a ++ b /\ l = a ++ b /\ (i < - Z.of_nat (length (j_fail j)) \/ Z.of_nat (length (j_fail j)) <= i))
      \/ exists x, j_fail j = a ++ x :: b /\ l = a ++ b /\ (Z.of_nat (length a) = i \/ Z.of_nat (length a) = i + Z.of_nat (length (j_fail j)) /\ i < 0).
Proof.
  intros w n v i s j NS L I. unfold proceed. rewrite set_unfold by exact NS. cbn [map]. unfold set_key.
  change (eqb "delfailregex" "idle") with false. change (eqb "delfailregex" "addignoreip") with false. change (eqb "delfailregex" "delignoreip") with false.
  change (eqb "delfailregex" "addlogpath") with false. change (eqb "delfailregex" "dellogpath") with false.
  change (eqb "delfailregex" "addfailregex" || eqb "delfailregex" "addignoreregex") with false. change (eqb "delfailregex" "delfailregex") with true. cbn [orb]. cbv iota zeta. rewrite I.
  unfold on_jail. change (lookup s n) with (jail_of s n). rewrite L. eexists _, _, _. split; [reflexivity|]. split; [eapply only_put, L|]. apply del_index_spec.
Qed.

(** Start of a jail that is new: both threads run. *)
Theorem C62_start : forall w n s j, jail_of s n = Some j -> j_filter j = TNew -> j_actions j = TNew -> e_fstart w n = true -> e_astart w n = true ->
  exists s', proceed w (start n) s = (s', (0, Good VNone)) /\
    (forall m, jail_of s' m = if eqb m n then Some (with_idle false (with_threads TRun TRun j)) else jail_of s m)
    /\ names s' = names s /\ s_enabled s' = s_enabled s /\ s_reload s' = s_reload s /\ s_events s' = s_events s ++ [Started (j_no j)].
Proof.
  intros w n s j L F AC E1 E2. unfold proceed, start. change (handler w (A [T "start"; T n]) s) with (done (start_jail w n s) VNone).
  unfold start_jail, is_alive, jail_start. change (lookup s n) with (jail_of s n). rewrite L, F, AC. cbn [t_alive orb negb]. rewrite E1. cbn [with_threads j_actions]. rewrite ?AC, E2. cbn [with_threads j_filter j_actions j_idle t_alive orb].
  assert (NP : forall j', names (put n j' s) = names s) by (intros; eapply names_put, L).
  cbn [j_idle]. destruct (j_idle j) eqn:I; cbn [done].
  - eexists. split; [reflexivity|]. split; [|split; [|repeat split]].
    + intros m. unfold jail_of, put, set_jails, note. cbn [s_jails]. rewrite !dget_dset. destruct (eqb m n); reflexivity.
    + unfold names, put, set_jails, note. cbn [s_jails]. change (map fst) with (@dkeys string jail).
      rewrite dkeys_dset_mem; [apply NP|]. rewrite dkeys_dset_mem; apply (dget_key _ j); exact L.
  - eexists. split; [reflexivity|]. split; [|split; [apply NP|repeat split]].
    intros m. unfold jail_of, put, set_jails, note. cbn [s_jails]. rewrite dget_dset. destruct (eqb m n); [|reflexivity]. destruct j; cbn in *. now subst.
Qed.

(** Start of a jail whose action thread cannot be started: an error, and its filter runs nevertheless. *)
Theorem C62_start_half : forall w n s j, jail_of s n = Some j -> j_filter j = TNew -> j_actions j = TNew -> e_fstart w n = true -> e_astart w n = false ->
  exists s', proceed w (start n) s = (s', (1, Bad EThread)) /\ (forall m, jail_of s' m = if eqb m n then Some (with_threads TRun TNew j) else jail_of s m) /\ s_events s' = s_events s ++ [Started (j_no j)].
Proof.
  intros w n s j L F AC E1 E2. unfold proceed, start. change (handler w (A [T "start"; T n]) s) with (done (start_jail w n s) VNone).
  unfold start_jail, is_alive, jail_start. change (lookup s n) with (jail_of s n). rewrite L, F, AC. cbn [t_alive orb negb]. rewrite E1. cbn [with_threads j_actions]. rewrite ?AC, E2. cbn [with_threads j_filter j_actions t_alive orb done].
  eexists. split; [reflexivity|]. split; [|reflexivity].
  intros m. unfold jail_of, put, set_jails, note. cbn [s_jails]. rewrite dget_dset. destruct (eqb m n); [|reflexivity]. unfold with_threads. reflexivity.
Qed.
(** A jail whose filter ended cannot be started again: an error, and nothing changes. *)
Theorem C62_start_dead : forall w n s j, jail_of s n = Some j -> j_filter j = TEnd -> t_alive (j_actions j) = false ->
  exists s', proceed w (start n) s = (s', (1, Bad EThread)) /\ (forall m, jail_of s' m = jail_of s m) /\ s_events s' = s_events s.
Proof.
  intros w n s j L F AC. unfold proceed, start. change (handler w (A [T "start"; T n]) s) with (done (start_jail w n s) VNone).
  unfold start_jail, is_alive, jail_start. change (lookup s n) with (jail_of s n). rewrite L, F. cbn [t_alive orb negb]. rewrite ?AC. cbn [orb negb]. rewrite ?F. cbn [t_alive orb]. rewrite ?AC. cbn [orb done].
  eexists. split; [reflexivity|]. split; [|reflexivity].
  intros m. unfold jail_of, put, set_jails. cbn [s_jails]. rewrite dget_dset. destruct (eqb_spec m n) as [->|]; [|reflexivity]. symmetry. exact L.
Qed.

(** Stop: the jail is gone, its threads have ended; nothing else changes. *)
Theorem C62_stop : forall db ops w n j, let s := after db ops in n <> "--all" -> jail_of s n = Some j -> db_ok w ->
  exists s', proceed w (stop n) s = (s', (0, Good VNone)) /\ (forall m, jail_of s' m = if eqb m n then None else jail_of s m)
    /\ (forall m, In m (s_enabled s') -> In m (s_enabled s)) /\ s_events s' = s_events s ++ [Stopped (j_no j)].
Proof.
  intros db ops w n j s NA L DB. pose proof (inv_after db ops) as I. fold s in I. destruct (DB n) as [_ D].
  unfold proceed, stop. change (handler w (A [T "stop"; T n]) s) with
      (if eqb n all_jails then done (stop_all w s) VNone else done (stop_jail w n s) VNone).
  change "--all" with all_jails in NA. apply eqb_neq in NA. rewrite NA. unfold stop_jail, del_jail. change (lookup s n) with (jail_of s n). rewrite L. cbn [orb]. cbv zeta.
  assert (W : dwf (dset n (jail_stop true true j) (s_jails s))) by (apply dwf_dset, (i_wf s I)).
  assert (J : forall m, dget m (ddel n (dset n (jail_stop true true j) (s_jails s))) = if eqb m n then None else jail_of s m).
  { intros m. rewrite dget_ddel by exact W. destruct (eqb m n) eqn:E; [reflexivity|]. rewrite dget_dset, E. reflexivity. }
  cbn [note put set_jails s_db s_jails s_enabled]. destruct (s_db s).
  - rewrite D. eexists. split; [reflexivity|]. split; [exact J|]. split; [|reflexivity].
    intros m. cbn [set_jails set_enabled s_enabled]. intros H. now apply filter_In in H.
  - eexists. split; [reflexivity|]. split; [exact J|]. split; [auto|reflexivity].
Qed.

Example C62_demo :
  let s := after true (started ++ [Cmd strict_env (set "sshd" "bantime" ["600"]); Cmd strict_env (set "sshd" "addfailregex" ["a"]); Cmd strict_env (set "sshd" "addfailregex" ["("]);
                                   Cmd strict_env (set "sshd" "addlogpath" ["/x"]); Cmd strict_env (set "sshd" "addlogpath" ["/x"]); Cmd strict_env (add "new" "auto")]) in
  snd (proceed good_env (get "sshd" "bantime" []) s) = (0, Good (VTxt "600"))
  /\ snd (proceed good_env (get "sshd" "failregex" []) s) = (0, Good (VLst ["a"]))
  /\ snd (proceed good_env (get "sshd" "logpath" []) s) = (0, Good (VLst ["/x"]))
  /\ (exists j, jail_of s "new" = Some j /\ j_filter j = TNew /\ j_actions j = TNew) /\ setting "bantime.increment".
Proof. vm_compute. repeat split; try (eexists; repeat split; reflexivity). now right. Qed.

Print Assumptions C62_value.
Print Assumptions C62_addlogpath.
Print Assumptions C62_dellogpath.
Print Assumptions C62_addregex.
Print Assumptions C62_addignoreip.
Print Assumptions C62_delregex.
Print Assumptions C62_start.
Print Assumptions C62_start_half.
Print Assumptions C62_start_dead.
Print Assumptions C62_stop.
