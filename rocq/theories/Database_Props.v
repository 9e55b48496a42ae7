(** Properties C21-C24 and C55: the persistent database. *)
From Verif Require Import Base Ticket_Model Database_Model Database_Spec Database_Proofs.
From Coq Require Import ZifyBool ZifyNat Permutation Sorted.

(** ** C21  A restart restores exactly the unexpired bans of the jail *)

(** After any history (a crash point is the end of the history) the queue of the starting jail
    gets exactly one ticket for each ID whose last stored ban in this jail was not deleted, is
    still running under the present limit of the jail, and is not ignored; the ticket has the
    stored beginning and count, and is marked as restored. *)
Theorem C21_restore_exact : forall cfg js j ops now ignored,
  sane_settings cfg -> sane_jail js -> sane_history now ops -> well_used j ops false ->
  let q := restore j js now (fun _ => now) ignored (db_run cfg ops db_init) in
  NoDup (map t_id q) /\
  (forall tk, In tk q -> exists e, last_ban j (t_id tk) ops None = Some e /\ restores cfg js e tk) /\
  (forall id, In id (map t_id q) <->
     id <> ""%string /\ ignored id = false /\
     exists e, last_ban j id ops None = Some e /\ t_id (snd e) = id
       /\ running now (t_time (snd e)) (limited js (get_bantime (fst e) (snd e)))).
Proof.
  intros cfg js j ops now ignored SC SJ SH WU q. split; [apply restored_NoDup|].
  pose proof (restored_In cfg js j ops now SC SJ SH WU (fun _ => now) ignored) as R. fold q in R. split.
  - intros tk I. apply R in I as (e & El & Hid & _ & _ & _ & _ & Et). exists e. split; [exact El|].
    rewrite Et. destruct e as [bt0 t]. apply ticket_restores.
  - intros id. split.
    + intros I. apply in_map_iff in I as (tk & <- & I). apply R in I as (e & El & Hid & N & Ig & Ru & _). eauto 8.
    + intros (N & Ig & e & El & Hid & Ru).
      pose (tk := with_restored true (row_ticket (js_maxm js) (limited js (get_bantime (fst e) (snd e))) (row_of cfg j (fst e) (snd e)))).
      assert (Ht : t_id tk = id).
      { destruct e as [bt0 t]. pose proof (ticket_restores cfg j js bt0 t) as (E & _). cbn [fst snd] in *. rewrite <- Hid. exact E. }
      rewrite <- Ht. apply in_map, R. exists e. rewrite Ht. do 5 (split; [assumption|]). split; [|reflexivity].
      destruct (hist cfg j ops now SC SH WU id) as [_ SE]. rewrite El in SE. cbn in SE.
      pose proof (limited_pos js _ SE). unfold running in Ru. unfold clock_ok.
      destruct (Z.eqb_spec (limited js (get_bantime (fst e) (snd e))) (-1)) as [X|X]; cbn [negb andb].
      * rewrite X. reflexivity.
      * destruct (Z.gtb_spec (now - t_time (snd e)) 0); lia.
Qed.

(** The end of the ban of a restored ticket is the stored one (as far as the limit allows). *)
Theorem C21_end_unchanged : forall cfg js bt t tk dflt,
  restores cfg js (bt, t) tk -> the_limit js = None \/ get_bantime bt t <> -1 /\ (forall m, the_limit js = Some m -> get_bantime bt t <= m) ->
  end_of_ban dflt tk = end_of_ban bt t.
Proof.
  intros cfg js bt t tk dflt (_ & E2 & E3 & _) H. cbn [fst snd] in *. unfold end_of_ban.
  assert (L : limited js (get_bantime bt t) = get_bantime bt t).
  { unfold limited. destruct (the_limit js) as [m|]; [|reflexivity]. destruct H as [H|[H1 H2]]; [discriminate|].
    specialize (H2 m eq_refl). destruct (Z.eqb_spec (get_bantime bt t) (-1)); lia. }
  replace (get_bantime dflt tk) with (get_bantime bt t); [now rewrite E2|].
  unfold get_bantime at 2. now rewrite E3, L.
Qed.

(** Tickets enter the queue in the order of their IDs. *)
Theorem C21_restore_order : forall cfg js j ops now clock ignored,
  StronglySorted (fun a b => String.leb (t_id a) (t_id b) = true) (restore j js now clock ignored (db_run cfg ops db_init)).
Proof. intros. apply restored_sorted. Qed.

(** Time passes while restoring: with any later clock no ban is restored that was over when the
    database was read, and each that still runs when its ticket is looked at is restored. *)
Theorem C21_restore_slow : forall cfg js j ops now clock ignored,
  sane_settings cfg -> sane_jail js -> sane_history now ops -> well_used j ops false ->
  (forall id, now <= clock id) ->
  let q := restore j js now clock ignored (db_run cfg ops db_init) in
  NoDup (map t_id q) /\
  (forall tk, In tk q -> ignored (t_id tk) = false /\ exists e, last_ban j (t_id tk) ops None = Some e /\ restores cfg js e tk
     /\ running now (t_time tk) (limited js (get_bantime (fst e) (snd e)))) /\
  (forall id e, id <> ""%string -> ignored id = false -> last_ban j id ops None = Some e -> t_id (snd e) = id ->
     running (clock id) (t_time (snd e)) (limited js (get_bantime (fst e) (snd e))) -> In id (map t_id q)).
Proof.
  intros cfg js j ops now clock ignored SC SJ SH WU CL q. split; [apply restored_NoDup|].
  pose proof (restored_In cfg js j ops now SC SJ SH WU clock ignored) as R. fold q in R. split.
  - intros tk I. apply R in I as (e & El & Hid & _ & Ig & Ru & _ & Et). split; [exact Ig|]. exists e. split; [exact El|].
    assert (X : restores cfg js e tk) by (rewrite Et; destruct e as [bt0 t]; apply ticket_restores).
    split; [exact X|]. destruct X as (_ & -> & _). exact Ru.
  - intros id e N Ig El Hid Ru.
    pose (tk := with_restored true (row_ticket (js_maxm js) (limited js (get_bantime (fst e) (snd e))) (row_of cfg j (fst e) (snd e)))).
    assert (Ht : t_id tk = id).
    { destruct e as [bt0 t]. pose proof (ticket_restores cfg j js bt0 t) as (E & _). cbn [fst snd] in *. rewrite <- Hid. exact E. }
    rewrite <- Ht. apply in_map, R. exists e. rewrite Ht. do 4 (split; [assumption|]).
    specialize (CL id). unfold running in *. split; [lia|]. split; [|reflexivity].
    destruct (hist cfg j ops now SC SH WU id) as [_ SE]. rewrite El in SE. cbn in SE.
    pose proof (limited_pos js _ SE). unfold clock_ok.
    destruct (Z.eqb_spec (limited js (get_bantime (fst e) (snd e))) (-1)) as [X|X]; cbn [negb andb].
    + rewrite X. reflexivity.
    + destruct (Z.gtb_spec (clock id - t_time (snd e)) 0); lia.
Qed.

(** A ban that is over by exactly one second when its ticket is looked at is still put in the
    queue: the remaining time -1 is taken for "permanent" (jail.py:305-308). *)
Theorem C21_minus_one_refuted : exists cfg js j ops now clock tk,
  sane_settings cfg /\ sane_jail js /\ sane_history now ops /\ well_used j ops false /\
  In tk (restore j js now clock (fun _ => false) (db_run cfg ops db_init)) /\
  is_timed_out (clock (t_id tk)) (js_bantime js) tk = true.
Proof.
  exists (mkSet 10 86400 3), (mkJset 600 false None 5), "j"%string,
    [DAddJail "j"; DAddBan "j" 600 (new_ticket "192.0.2.1" 1000 [] 1)]%string, 1599, (fun _ => 1601),
    (with_restored true (with_bantime (Some 600) (new_ticket "192.0.2.1" 1000 [] 1))).
  split; [split; cbn; lia|]. split; [right; right; cbn; lia|].
  split; [repeat (apply Forall_cons || apply Forall_nil); cbn; auto; right; lia|].
  split; [vm_compute; auto|]. split; [vm_compute; auto|vm_compute; reflexivity].
Qed.

Definition C21_ops : list db_op :=
  [DAddJail "j"; DAddJail "k"; DAddBan "j" 600 (new_ticket "192.0.2.1" 1000 ["m1"; "m2"] 2);
   DAddBan "j" 600 (new_ticket "192.0.2.2" 300 [] 1);
   DAddBan "j" 600 (with_bantime (Some (-1)) (new_ticket "192.0.2.3" 100 [] 1));
   DAddBan "k" 600 (new_ticket "192.0.2.4" 1000 [] 1); DAddBan "j" 600 (new_ticket "192.0.2.5" 1000 [] 1);
   DDelBan "j" ["192.0.2.5"]; DPurge 1200; DStart; DAddJail "j"]%string.
Example C21_demo :
  let cfg := mkSet 10 86400 3 in
  let js := mkJset 600 true (Some 86400) 1 in
  sane_settings cfg /\ sane_jail js /\ sane_history 1300 C21_ops /\ well_used "j" C21_ops false /\
  map (fun t => (t_id t, t_time t, t_bantime t, get_matches t)) (restore "j" js 1300 (fun _ => 1300) (fun _ => false) (db_run cfg C21_ops db_init))
  = [("192.0.2.1", 1000, Some 600, ["m2"]); ("192.0.2.3", 100, Some 86400, [])]%string /\
  map t_id (restore "j" (mkJset 600 false None 1) 1300 (fun _ => 1300) (fun _ => false) (db_run cfg C21_ops db_init))
  = ["192.0.2.1"]%string.
Proof.
  split; [split; cbn; lia|]. split; [now left|].
  split; [repeat (apply Forall_cons || apply Forall_nil); cbn; auto; lia|].
  split; [vm_compute; tauto|]. vm_compute. split; reflexivity.
Qed.

(** ** C22  Purging never removes a live record *)

(** What is restored at the time of the purge or later is the same with and without the purge. *)
Theorem C22_restore_unchanged : forall cfg j js now from clock ignored d,
  sane_settings cfg -> now <= from ->
  (forall k r, In (k, r) (db_bips d) -> r_bt r = -1 \/ 0 < r_bt r) ->
  restore j js from clock ignored (purge cfg now d) = restore j js from clock ignored d.
Proof. intros cfg j js now from clock ignored d P H S. rewrite !restore_rows. now rewrite purge_current. Qed.

(** The current ban of an ID is removed only if it is not permanent, began before the purge age
    and was over by then; otherwise it is kept as it is.  Nothing is added. *)
Theorem C22_current_bans : forall cfg0 ops cfg now ip j, sane_settings cfg ->
  let d := db_run cfg0 ops db_init in
  let old := dget (ip, j) (db_bips d) in
  let new := dget (ip, j) (db_bips (purge cfg now d)) in
  new = old \/
  (new = None /\ exists r, old = Some r /\ r_bt r <> -1 /\ r_time r < now - purgeAge cfg
     /\ (0 <= r_bt r -> r_time r + r_bt r < now - purgeAge cfg)).
Proof.
  intros cfg0 ops cfg now ip j [P1 P2] d old new. assert (B : bips_ok (db_bips d)) by apply wf_run, wf_init. unfold new, purge. cbn [with_logs with_jails with_bips with_bans with_cache db_bips].
  rewrite dget_filter by apply B. unfold old. destruct (dget (ip, j) (db_bips d)) as [r|]; [|auto]. cbn [snd].
  match goal with |- context [if negb ?b then _ else _] => destruct b eqn:E end; [|auto]. right. split; [reflexivity|].
  exists r. repeat split; try lia. intros Hb. nia.
Qed.

(** A record older by the whole margin (outdated factor) does go: a purge is not a no-op. *)
Theorem C22_outdated_removed : forall cfg0 ops cfg now ip j r,
  let d := db_run cfg0 ops db_init in
  dget (ip, j) (db_bips d) = Some r -> r_bt r <> -1 -> r_time r < now - purgeAge cfg ->
  r_time r + r_bt r * outDated cfg < now - purgeAge cfg -> dget (ip, j) (db_bips (purge cfg now d)) = None.
Proof.
  intros cfg0 ops cfg now ip j r d G H1 H2 H3. assert (B : bips_ok (db_bips d)) by apply wf_run, wf_init. unfold purge. cbn [with_logs with_jails with_bips with_bans with_cache db_bips].
  rewrite dget_filter by apply B. rewrite G. cbn [snd]. match goal with |- context [if negb ?b then _ else _] => destruct b eqn:E end; [reflexivity|lia].
Qed.

(** Of the history exactly the rows older than the purge age are removed; a jail is removed
    exactly if it is disabled and no ban of it is left, and its logs with it. *)
Theorem C22_history_and_jails : forall cfg0 ops cfg now,
  let d := db_run cfg0 ops db_init in
  let d' := purge cfg now d in
  db_bans d' = filter (fun r => now - purgeAge cfg <=? r_time r) (db_bans d) /\
  (forall j, dget j (db_jails d') = dget j (db_jails d) \/
     (dget j (db_jails d') = None /\ dget j (db_jails d) = Some false
      /\ (forall r, In r (db_bans d') -> r_jail r <> j) /\ (forall k r, In (k, r) (db_bips d') -> snd k <> j))) /\
  (forall j, dget j (db_jails d) = Some false -> (forall r, In r (db_bans d') -> r_jail r <> j) ->
     (forall k r, In (k, r) (db_bips d') -> snd k <> j) -> dget j (db_jails d') = None) /\
  (forall j path, dget (j, path) (db_logs d')
     = if dmem j (db_jails d') then dget (j, path) (db_logs d) else None).
Proof.
  intros cfg0 ops cfg now d d'. assert (W : db_wf d) by apply wf_run, wf_init. destruct W as (B & J & L & C).
  assert (Bk : forall k r, In (k, r) (db_bips d') -> snd k = r_jail r).
  { intros k r I. apply filter_In in I as [I _]. destruct B as [_ B]. now rewrite (B _ _ I). }
  assert (E : forall j e, e || existsb (fun r => eqb (r_jail r) j) (db_bans d') || existsb (fun kv => eqb (r_jail (snd kv)) j) (db_bips d') = false <->
     e = false /\ (forall r, In r (db_bans d') -> r_jail r <> j) /\ (forall k r, In (k, r) (db_bips d') -> snd k <> j)).
  { intros j e. rewrite !orb_false_iff. split.
    - intros [[He H1] H2]. split; [exact He|]. split.
      + intros r I <-. assert (X : existsb (fun r0 => eqb (r_jail r0) (r_jail r)) (db_bans d') = true); [|congruence].
        apply existsb_exists. exists r. split; [exact I|apply eqb_refl].
      + intros k r I X. rewrite (Bk _ _ I) in X. assert (Y : existsb (fun kv => eqb (r_jail (snd kv)) j) (db_bips d') = true); [|congruence].
        apply existsb_exists. exists (k, r). split; [exact I|]. cbn. rewrite X. apply eqb_refl.
    - intros (He & H1 & H2). split; [split; [exact He|]|].
      + destruct (existsb _ (db_bans d')) eqn:X; [|reflexivity]. apply existsb_exists in X as (r & I & X). apply eqb_true in X. now destruct (H1 r I).
      + destruct (existsb _ (db_bips d')) eqn:X; [|reflexivity]. apply existsb_exists in X as ([k r] & I & X). apply eqb_true in X. cbn in X.
        destruct (H2 k r I). now rewrite (Bk _ _ I). }
  assert (Jd : forall j, dget j (db_jails d') = match dget j (db_jails d) with
     | Some e => if e || existsb (fun r => eqb (r_jail r) j) (db_bans d') || existsb (fun kv => eqb (r_jail (snd kv)) j) (db_bips d') then Some e else None
     | None => None end).
  { intros j. unfold d' at 1. unfold purge. cbn [with_logs with_jails db_jails]. rewrite dget_filter by exact J. reflexivity. }
  split; [apply filter_ext; intros; lia|]. split; [|split].
  - intros j. rewrite Jd. destruct (dget j (db_jails d)) as [e|]; [|auto].
    destruct (e || _ || _) eqn:X; [auto|]. apply E in X as (-> & X). right. auto.
  - intros j G H1 H2. rewrite Jd, G. now rewrite (proj2 (E j false)) by auto.
  - intros j path. unfold d' at 1. unfold purge. cbn [with_logs with_jails with_bips with_bans with_cache db_logs db_jails]. rewrite dget_filter by exact L.
    destruct (dget (j, path) (db_logs d)) as [x|] eqn:G; [|now destruct (dmem _ _)]. cbn [fst].
    assert (M : dmem j (db_jails d) = true) by (eapply C; apply dget_In; exact G).
    unfold dmem in *. rewrite Jd. destruct (dget j (db_jails d)) as [e|] eqn:Gj; [|discriminate].
    match goal with |- (if negb (inb j ?l) then _ else _) = _ => destruct (inb j l) eqn:X end.
    + apply inb_In, in_map_iff in X as ([j' e'] & Ej & I). cbn in Ej. subst j'. apply filter_In in I as [I K].
      apply (In_dget _ _ _ J) in I. rewrite Gj in I. injection I as <-. cbn [fst snd] in K. apply negb_true_iff in K.
      unfold d'. unfold purge. cbn [with_logs with_jails db_jails db_bans db_bips] in *. rewrite K. reflexivity.
    + apply inb_false in X. destruct (e || _ || _) eqn:K; [reflexivity|]. exfalso. apply X, in_map_iff. exists (j, e). split; [reflexivity|].
      apply filter_In. split; [now apply dget_In|]. cbn [fst snd]. apply negb_true_iff. exact K.
Qed.

Example C22_demo :
  let cfg := mkSet 10 100 3 in
  let d := db_run cfg [DAddJail "j"; DAddJail "k"; DAddJail "z"; DAddBan "j" 600 (new_ticket "a" 0 [] 1); DAddBan "k" 10 (new_ticket "b" 0 [] 1);
                       DUpdLog "z" "/l" 5 None; DDelJail "z"; DAddBan "j" (-1) (new_ticket "c" 0 [] 1)]%string db_init in
  map fst (db_bips (purge cfg 1000 d)) = [("a", "j"); ("c", "j")]%string
  /\ map fst (db_jails (purge cfg 1000 d)) = ["j"; "k"]%string /\ db_logs (purge cfg 1000 d) = [] /\ db_bans (purge cfg 1000 d) = [].
Proof. vm_compute. repeat split. Qed.

(** ** C23  Ban history round trip *)

(** Storing a ban in a known jail makes the stored count, time and ban time those of the ticket
    and changes nothing for any other ID or jail; in an unknown jail it is refused. *)
Theorem C23_add_ban : forall cfg d j bt t,
  let '(d', ok) := add_ban cfg j bt t d in
  ok = dmem j (db_jails d) /\
  (ok = true -> get_ban (t_id t) j false d' = [(t_bancount t, t_time t, get_bantime bt t)]) /\
  (ok = false -> db_bans d' = db_bans d /\ db_bips d' = db_bips d) /\
  (forall ip j', (ip, j') <> (t_id t, j) -> get_ban ip j' false d' = get_ban ip j' false d) /\
  db_jails d' = db_jails d /\ db_logs d' = db_logs d.
Proof.
  intros cfg d j bt t. destruct (add_ban cfg j bt t d) as [d' ok] eqn:E. unfold add_ban in E. cbn [with_cache db_jails] in E.
  destruct (dmem j (db_jails d)); injection E as <- <-; cbn.
  - repeat split; try discriminate.
    + intros _. unfold get_ban. cbn. now rewrite dget_dset_same.
    + intros ip j' N. unfold get_ban. cbn. now rewrite dget_dset_other by congruence.
  - repeat split; discriminate.
Qed.

(** Deleting removes exactly the given IDs of the jail (all of the jail if none is given). *)
Theorem C23_del_ban : forall cfg ops j ips ip j',
  let d := db_run cfg ops db_init in
  let gone := eqb j' j && match ips with [] => true | _ => inb ip ips end in
  get_ban ip j' false (del_ban j ips d) = (if gone then [] else get_ban ip j' false d) /\
  get_bans (Some j') None (Some ip) 0 (del_ban j ips d) = (if gone then [] else get_bans (Some j') None (Some ip) 0 d) /\
  db_jails (del_ban j ips d) = db_jails d /\ db_logs (del_ban j ips d) = db_logs d.
Proof.
  intros cfg ops j ips ip j' d gone. assert (B : bips_ok (db_bips d)) by apply wf_run, wf_init. destruct (del_ban_frame j ips d) as (E1 & E2 & _). split; [|split; [|auto]].
  - unfold get_ban. rewrite del_ban_bips, dget_filter by apply B. unfold gone. destruct (dget (ip, j') (db_bips d)) as [r|]; cbn [fst snd]; [|now destruct (_ && _)].
    destruct (_ && _); reflexivity.
  - unfold get_bans. rewrite del_ban_bans. rewrite filter_comm. unfold gone.
    destruct (eqb_spec j' j) as [->|N]; cbn [andb].
    + destruct (match ips with [] => true | _ => inb ip ips end) eqn:E.
      * rewrite filter_nil; [reflexivity|]. intros r I. apply filter_In in I as [_ I]. rewrite !andb_true_iff in I. destruct I as [[I1 _] I2].
        cbn in I1, I2. apply eqb_true in I1 as <-. apply eqb_true in I2 as <-. now rewrite eqb_refl, E.
      * rewrite filter_all; [reflexivity|]. intros r I. apply filter_In in I as [_ I]. rewrite !andb_true_iff in I. destruct I as [[I1 _] I2].
        cbn in I1, I2. apply eqb_true in I1 as <-. apply eqb_true in I2 as <-. now rewrite eqb_refl, E.
    + rewrite filter_all; [reflexivity|]. intros r I. apply filter_In in I as [_ I]. rewrite !andb_true_iff in I. destruct I as [[I1 _] I2].
      cbn in I1. apply eqb_true in I1 as <-. destruct (eqb_spec j' j); [congruence|reflexivity].
Qed.

(** The listed bans of an ID in a jail are, newest first, all that were stored and neither deleted
    nor outdated at a purge since. *)
Theorem C23_history : forall cfg ops j ip, well_used j ops false ->
  let l := get_bans (Some j) None (Some ip) 0 (db_run cfg ops db_init) in
  Permutation (map (fun r => (r_time r, r_bt r, r_count r, r_fail r, match r_matches r with Some l => l | None => [] end)) l)
    (map (fun e => (t_time (snd e), get_bantime (fst e) (snd e), t_bancount (snd e), t_failures (snd e),
                    last_n (maxMatches cfg) (match t_matches (snd e) with Some l => l | None => [] end))) (all_bans (purgeAge cfg) j ip ops []))
  /\ (forall r, In r l -> r_jail r = j /\ r_ip r = ip)
  /\ StronglySorted (fun a b => r_time b <= r_time a) l.
Proof.
  intros cfg ops j ip U l. pose proof (bans_run cfg j ip ops db_init false [] wf_init ltac:(discriminate) U eq_refl) as H.
  assert (Hl : Permutation l (map (fun e => row_of cfg j (fst e) (snd e)) (all_bans (purgeAge cfg) j ip ops []))).
  { unfold l, get_bans. rewrite sort_by_perm. rewrite <- H. erewrite filter_ext; [reflexivity|]. intros r. unfold jail_ip, opt_is. cbn.
    rewrite andb_true_r. now rewrite (eqb_sym j), (eqb_sym ip). }
  assert (In_l : forall r, In r l -> r_jail r = j /\ r_ip r = ip).
  { intros r I. unfold l, get_bans in I. apply In_sort_by, filter_In in I as [_ I]. rewrite !andb_true_iff in I. destruct I as [[I1 _] I2].
    cbn in I1, I2. split; symmetry; now apply eqb_true. }
  split; [rewrite Hl, map_map; erewrite map_ext; [reflexivity|]; intros e; cbn; now rewrite stored_get|]. split; [exact In_l|].
  assert (S : Sorted (fun a b => r_time b <= r_time a) l).
  { assert (S0 : Sorted (fun a b => ban_order a b = true) l) by (unfold l, get_bans; apply sort_by_sorted, ban_order_total).
    clear -S0 In_l. induction S0 as [|x l S IH H]; constructor; [apply IH; intros; apply In_l; now right|].
    destruct H as [|y l H]; constructor. unfold ban_order in H.
    destruct (In_l x (or_introl eq_refl)) as [_ E1]. destruct (In_l y (or_intror (or_introl eq_refl))) as [_ E2].
    rewrite E1, E2 in H. unfold String.ltb in H.
    assert (X : String.compare ip ip = Eq) by (clear; induction ip; cbn; [reflexivity|]; unfold Ascii.compare; now rewrite N.compare_refl).
    rewrite X in H. cbn in H. apply andb_true_iff in H as [_ H]. lia. }
  apply Sorted_StronglySorted; [intros a b c; lia|exact S].
Qed.

(** Counted over all jails: the sum of the counts and ban times and the latest time, where [js]
    are any jails among which are all that know the ID. *)
Theorem C23_over_all_jails : forall cfg ops ip j js,
  let d := db_run cfg ops db_init in NoDup js ->
  (forall j', get_ban ip j' false d <> [] -> In j' js) ->
  match get_ban ip j true d with
  | [] => forall j', get_ban ip j' false d = []
  | [(c, t, b)] =>
      c = zsum (map (fun j' => match get_ban ip j' false d with [(x, _, _)] => x | _ => 0 end) js) /\
      b = zsum (map (fun j' => match get_ban ip j' false d with [(_, _, x)] => x | _ => 0 end) js) /\
      (exists j' x y, get_ban ip j' false d = [(x, t, y)]) /\
      (forall j' x t' y, get_ban ip j' false d = [(x, t', y)] -> t' <= t)
  | _ => False
  end.
Proof.
  intros cfg ops ip j js d ND H. assert (B : bips_ok (db_bips d)) by apply wf_run, wf_init. unfold get_ban in *.
  assert (C : forall k r, In (k, r) (db_bips d) -> fst k = ip -> In (snd k) js).
  { intros [i j'] r I E. cbn in *. subst i. apply H. rewrite (In_dget _ _ _ (proj1 B) I). discriminate. }
  pose proof (sum_rows r_count ip js (db_bips d) B ND C) as S1.
  pose proof (sum_rows r_bt ip js (db_bips d) B ND C) as S2.
  destruct (filter (fun kv => eqb (fst (fst kv)) ip) (db_bips d)) as [|x l] eqn:E.
  - intros j'. destruct (dget (ip, j') (db_bips d)) as [r|] eqn:G; [|reflexivity]. apply dget_In in G.
    assert (I : In ((ip, j'), r) (filter (fun kv => eqb (fst (fst kv)) ip) (db_bips d))) by (apply filter_In; split; [exact G|apply eqb_refl]).
    rewrite E in I. destruct I.
  - cbv beta iota; cbn [hd].
    set (m := fold_right Z.max _ _).
    pose proof (fold_max_spec (r_time (snd x)) (map (fun kv => r_time (snd kv)) (x :: l))) as (M1 & M2 & M3). cbn zeta in *. fold m in M1, M2, M3.
    split; [rewrite fold_zsum, S1; f_equal; apply map_ext; intros j'; now destruct (dget (ip, j') (db_bips d))|].
    split; [rewrite fold_zsum, S2; f_equal; apply map_ext; intros j'; now destruct (dget (ip, j') (db_bips d))|].
    assert (In_m : exists kv, In kv (x :: l) /\ r_time (snd kv) = m).
    { destruct M1 as [M1|M1]; [exists x; split; [now left|congruence]|]. apply in_map_iff in M1 as (kv & Ek & I). eauto. }
    split.
    + destruct In_m as ([[i j'] r] & I & Er). rewrite <- E in I. apply filter_In in I as [I Ei]. cbn in Ei. apply eqb_true in Ei. subst i.
      exists j', (r_count r), (r_bt r). rewrite (In_dget _ _ _ (proj1 B) I). cbn in Er. now rewrite Er.
    + intros j' a t' b G. destruct (dget (ip, j') (db_bips d)) as [r|] eqn:Gr; [|discriminate]. injection G as <- <- <-.
      apply M3. apply in_map_iff. exists ((ip, j'), r). split; [reflexivity|]. rewrite <- E. apply filter_In. split; [now apply dget_In|apply eqb_refl].
Qed.

Example C23_demo :
  (let cfg := mkSet 1 86400 3 in
  let t1 := with_bancount 2 (new_ticket "a" 100 ["x"; "y"] 3)%string in
  let ops := [DAddJail "j"; DAddJail "k"; DAddBan "j" 600 (new_ticket "a" 50 [] 1); DAddBan "j" 600 t1; DAddBan "k" 5 (new_ticket "a" 70 [] 1);
              DDelBan "k" ["b"]]%string in
  let d := db_run cfg ops db_init in
  well_used "j" ops false /\
  get_ban "a" "j" false d = [(2, 100, 600)]%Z /\ get_ban "a" "j" true d = [(2, 100, 605)] /\
  map (fun r => (r_time r, r_matches r)) (get_bans (Some "j") None (Some "a") 0 d)%string = [(100, Some ["y"]); (50, Some [])]%string /\
  get_ban "a" "j" false (del_ban "j" ["a"] d) = [] /\ snd (add_ban cfg "nojail" 600 t1 d) = false)%string.
Proof. split; [vm_compute; tauto|]. vm_compute. repeat split. Qed.

(** Asked for the last [b] seconds: exactly the bans that began less than [b] seconds ago. *)
Theorem C23_window : forall jail ip b now d, 0 <= b ->
  Permutation (get_bans jail (Some b) ip now d) (filter (fun r => now - b <? r_time r) (get_bans jail None ip now d)).
Proof.
  intros jail ip b now d B. unfold get_bans. rewrite (filter_perm _ _ _ (sort_by_perm _ _)), sort_by_perm, filter_and.
  erewrite filter_ext; [reflexivity|]. intros r. cbn. replace (b >=? 0) with true by lia. rewrite andb_true_r. rewrite <- !andb_assoc. f_equal. rewrite andb_comm. f_equal. lia.
Qed.
Example C23_demo_window :
  let d := db_run (mkSet 10 86400 3) [DAddJail "j"; DAddBan "j" 600 (new_ticket "a" 100 [] 1); DAddBan "j" 600 (new_ticket "a" 200 [] 1)]%string db_init in
  map r_time (get_bans (Some "j"%string) (Some 50) None 250 d) = [] /\ map r_time (get_bans (Some "j"%string) (Some 51) None 250 d) = [200] /\
  map r_time (get_bans (Some "j"%string) (Some 151) None 250 d) = [200; 100].
Proof. vm_compute. auto. Qed.

(** ** C24  Log positions *)

(** What is stored for a log file of a jail is what was noted last for it, over any use of other
    files and jails, restarts and purges while the jail is enabled. *)
Theorem C24_position_kept : forall cfg ops j path, logs_used j ops false ->
  dget (j, path) (db_logs (db_run cfg ops db_init)) = last_log j path ops None.
Proof. intros cfg ops j path U. exact (log_run cfg j path ops db_init false wf_init ltac:(discriminate) U). Qed.

(** Adding the file again tells the position noted last, if the first line is still the same (or
    was not compared); another first line gives no position, so reading starts at the beginning. *)
Theorem C24_resume : forall cfg ops j path pos md5, logs_used j ops false -> enabled j ops false = true ->
  snd (add_log j path pos md5 (db_run cfg ops db_init)) = true /\
  snd (fst (add_log j path pos md5 (db_run cfg ops db_init)))
  = match last_log j path ops None with
    | Some (first, p) =>
        match md5 with
        | None => Some p
        | Some h => match first with Some h' => if eqb h h' then Some p else None | None => None end
        end
    | None => None
    end.
Proof.
  intros cfg ops j path pos md5 U E. rewrite <- (C24_position_kept cfg ops j path U).
  pose proof (enabled_has cfg j ops db_init false wf_init ltac:(discriminate) E) as J. unfold has_jail in J.
  unfold add_log. assert (M : dmem j (db_jails (db_run cfg ops db_init)) = true) by (unfold dmem; now rewrite J).
  destruct (dget (j, path) (db_logs (db_run cfg ops db_init))) as [[[f|] p]|]; cbn [fst snd].
  - split; [reflexivity|]. destruct md5 as [h|]; [|reflexivity]. unfold eqb at 1; cbn. reflexivity.
  - destruct (negb (pos =? 0) || _); [rewrite M|]; (split; [reflexivity|]); destruct md5; reflexivity.
  - destruct (negb (pos =? 0) || _); [rewrite M|]; (split; [reflexivity|]); destruct md5; reflexivity.
Qed.

(** Noting a position, and a restart of the server after which the jail is added again: the
    position comes back. *)
Theorem C24_restart : forall cfg ops j path pos h pos', logs_used j ops false -> enabled j ops false = true ->
  snd (fst (add_log j path pos' (Some h)
        (db_run cfg (ops ++ [DUpdLog j path pos (Some h); DStart; DAddJail j]) db_init))) = Some pos.
Proof.
  intros cfg ops j path pos h pos' U E.
  assert (LA : forall a b cur, last_log j path (a ++ b) cur = last_log j path b (last_log j path a cur)).
  { clear. induction a as [|o a IH]; intros b cur; [reflexivity|]. rewrite <- app_comm_cons, last_log_cons, (last_log_cons j path o a). apply IH. }
  assert (EA : forall a b cur, enabled j (a ++ b) cur = enabled j b (enabled j a cur)).
  { clear. induction a as [|o a IH]; intros b cur; [reflexivity|]. rewrite <- app_comm_cons, enabled_cons, (enabled_cons j o a). apply IH. }
  assert (UA : forall a b cur, logs_used j a cur -> logs_used j b (enabled j a cur) -> logs_used j (a ++ b) cur).
  { clear. induction a as [|o a IH]; intros b cur Ua Ub; [exact Ub|]. rewrite <- app_comm_cons. destruct Ua as [Ua1 Ua2]. split; [exact Ua1|].
    rewrite enabled_cons in Ub. auto. }
  rewrite (proj2 (C24_resume cfg (ops ++ [DUpdLog j path pos (Some h); DStart; DAddJail j]) j path pos' (Some h) ltac:(
    apply UA; [exact U|cbn; rewrite eqb_refl, E; auto]) ltac:(rewrite EA; cbn; now rewrite eqb_refl))).
  rewrite LA. cbn. rewrite !eqb_refl. cbn. now rewrite eqb_refl.
Qed.

(** Without a first line hash (file empty when first seen) a first position of 0 is not noted, and
    a later first line counts as "another file": the noted position is forgotten. *)
Theorem C24_no_hash_refuted : exists ops,
  logs_used "j" ops false /\ enabled "j" ops false = true /\
  last_log "j" "/l" ops None = Some (None, 7) /\
  snd (fst (add_log "j" "/l" 0 (Some "h"%string) (db_run (mkSet 10 86400 3) ops db_init))) = None.
Proof. exists [DAddJail "j"; DUpdLog "j" "/l" 7 None]%string. vm_compute. auto 8. Qed.

Example C24_demo :
  let ops := [DAddJail "j"; DAddJail "k"; DAddLog "j" "/l" 0 (Some "h"); DUpdLog "j" "/l" 120 (Some "h"); DUpdLog "k" "/l" 9 (Some "g");
              DPurge 100; DStart; DAddJail "j"]%string in
  logs_used "j" ops false /\ enabled "j" ops false = true /\
  snd (fst (add_log "j" "/l" 0 (Some "h") (db_run (mkSet 10 86400 3) ops db_init)))%string = Some 120 /\
  snd (fst (add_log "j" "/l" 0 (Some "other") (db_run (mkSet 10 86400 3) ops db_init)))%string = None /\
  snd (fst (add_log "j" "/m" 0 (Some "h") (db_run (mkSet 10 86400 3) ops db_init)))%string = None.
Proof. vm_compute. tauto. Qed.

(** ** C55  Merged bans of an ID *)

(** For an ID: no bans, no ticket; otherwise one ticket with the sum of the failures and the last
    matches of all its bans in the order of time, dated by the oldest. *)
Theorem C55_merged : forall cfg ip jail d,
  dget (Some ip, jail) (db_cache d) = None ->
  let bans := get_bans jail None (Some ip) 0 d in
  snd (get_bans_merged cfg (Some ip) jail None 0 d)
  = match bans with
    | [] => []
    | _ => [mkMerged ip (last (map r_time bans) 0) (zsum (map r_fail bans))
              (last_n (maxMatches cfg) (concat (map (fun r => match r_matches r with Some l => l | None => [] end) (rev bans))))]
    end.
Proof.
  intros cfg ip jail d G bans. unfold get_bans_merged. rewrite G. cbn [snd]. fold bans. destruct bans as [|r l] eqn:E; [reflexivity|].
  apply merge_all; [discriminate|]. intros r' I. rewrite <- E in I. unfold bans, get_bans in I. apply In_sort_by, filter_In in I as [_ I].
  rewrite !andb_true_iff in I. destruct I as [_ I]. cbn in I. symmetry. now apply eqb_true.
Qed.

(** The answer for all IDs has, for each ID, what the answer for this ID alone has. *)
Theorem C55_all_ids : forall cfg ip jail bt now d,
  let d0 := with_cache [] d in
  filter (fun m => eqb (m_ip m) ip) (snd (get_bans_merged cfg None jail bt now d0)) = snd (get_bans_merged cfg (Some ip) jail bt now d0).
Proof.
  intros cfg ip jail bt now d d0. unfold get_bans_merged. cbn [d0 with_cache db_cache dget].
  assert (G : filter (fun m => eqb (m_ip m) ip) (merge_rows (maxMatches cfg) (get_bans jail bt None now d0) None) = merge_rows (maxMatches cfg) (get_bans jail bt (Some ip) now d0) None).
  { change (fun m => eqb (m_ip m) ip) with (in_group ip). rewrite merge_filter.
    - f_equal. unfold get_bans. rewrite filter_sort, filter_and. f_equal. apply filter_ext. intros r. cbn. rewrite andb_true_r. now rewrite (eqb_sym ip).
    - unfold get_bans. apply Sorted_StronglySorted; [intros a b c; apply ban_order_trans|]. apply sort_by_sorted, ban_order_total.
    - discriminate. }
  destruct (match bt with None => true | Some b => b <? 0 end); cbn [snd]; exact G.
Qed.
Example C55_demo_all :
  let d := db_run (mkSet 10 86400 3) [DAddJail "j"; DAddBan "j" 600 (new_ticket "a" 100 [] 1); DAddBan "j" 600 (new_ticket "b" 150 [] 4); DAddBan "j" 600 (new_ticket "a" 200 [] 2)]%string db_init in
  map (fun m => (m_ip m, m_fail m)) (snd (get_bans_merged (mkSet 10 86400 3) None None None 0 (with_cache [] d))) = [("a", 3); ("b", 4)]%string.
Proof. vm_compute. reflexivity. Qed.

(** The remembered answer for an ID is the one that would be computed, as long as no ban was
    deleted by hand. *)
Theorem C55_cache_coherent : forall cfg ops ip jail,
  Forall (fun o => is_del o = false) ops ->
  let d := db_run cfg ops db_init in
  snd (get_bans_merged cfg (Some ip) jail None 0 d) = snd (get_bans_merged cfg (Some ip) jail None 0 (with_cache [] d)).
Proof.
  intros cfg ops ip jail F d. pose proof (coherent_run cfg ops F db_init dwf_nil ltac:(intros ? ? ? X; discriminate)) as H. fold d in H.
  unfold get_bans_merged. cbn [with_cache db_cache dget]. destruct (dget (Some ip, jail) (db_cache d)) as [v|] eqn:G; [|reflexivity].
  cbn. now rewrite (H _ _ _ G).
Qed.

(** After deleting a ban the remembered answer is still given. *)
Theorem C55_stale_after_delete_refuted : exists cfg ops ip jail,
  let d := db_run cfg ops db_init in
  snd (get_bans_merged cfg (Some ip) jail None 0 d) <> [] /\ get_bans jail None (Some ip) 0 d = [].
Proof.
  exists (mkSet 10 86400 3), [DAddJail "j"; DAddBan "j" 600 (new_ticket "a" 100 [] 1); DMerged (Some "a") (Some "j") None 0; DDelBan "j" ["a"]]%string,
    "a"%string, (Some "j"%string). cbn zeta. split; [intros X; vm_compute in X; discriminate|reflexivity].
Qed.

(** The answer for all IDs is remembered too and a new ban does not correct it. *)
Theorem C55_stale_for_all_refuted : exists cfg ops,
  Forall (fun o => is_del o = false) ops /\
  let d := db_run cfg ops db_init in
  snd (get_bans_merged cfg None None None 0 d) = [] /\ get_bans None None None 0 d <> [].
Proof.
  exists (mkSet 10 86400 3), [DAddJail "j"; DMerged None None None 0; DAddBan "j" 600 (new_ticket "a" 100 [] 1)]%string.
  split; [repeat constructor|]. cbn zeta. split; [reflexivity|intros X; vm_compute in X; discriminate].
Qed.

Example C55_demo :
  let cfg := mkSet 3 86400 3 in
  let ops := [DAddJail "j"; DAddBan "j" 600 (new_ticket "a" 100 ["l1"; "l2"] 2); DMerged (Some "a") (Some "j") None 0;
              DAddBan "j" 600 (new_ticket "a" 900 ["l3"; "l4"] 5); DAddBan "j" 600 (new_ticket "b" 500 ["z"] 1)]%string in
  let d := db_run cfg ops db_init in
  Forall (fun o => is_del o = false) ops /\ dget (Some "a", Some "j")%string (db_cache d) = None /\
  snd (get_bans_merged cfg (Some "a") (Some "j") None 0 d)%string = [mkMerged "a" 100 7 ["l2"; "l3"; "l4"]]%string.
Proof. split; [repeat constructor|]. vm_compute. split; reflexivity. Qed.

Print Assumptions C21_restore_exact.
Print Assumptions C21_end_unchanged.
Print Assumptions C21_restore_order.
Print Assumptions C21_restore_slow.
Print Assumptions C21_minus_one_refuted.
Print Assumptions C21_demo.
Print Assumptions C22_restore_unchanged.
Print Assumptions C22_current_bans.
Print Assumptions C22_outdated_removed.
Print Assumptions C22_history_and_jails.
Print Assumptions C22_demo.
Print Assumptions C23_add_ban.
Print Assumptions C23_del_ban.
Print Assumptions C23_history.
Print Assumptions C23_over_all_jails.
Print Assumptions C23_demo.
Print Assumptions C24_position_kept.
Print Assumptions C24_resume.
Print Assumptions C24_restart.
Print Assumptions C24_no_hash_refuted.
Print Assumptions C24_demo.
Print Assumptions C55_merged.
Print Assumptions C55_cache_coherent.
Print Assumptions C55_stale_after_delete_refuted.
Print Assumptions C55_stale_for_all_refuted.
Print Assumptions C55_demo.
Print Assumptions C23_window.
Print Assumptions C55_all_ids.
