(** Properties C11-C17: the actions of a jail. *)
From Verif Require Import Base Ticket_Model BanManager_Model BanManager_Spec BanManager_Proofs
  Actions_Model Actions_Spec Actions_Proofs Actions_Proofs2.
Open Scope string_scope.

(** ** C11  A fresh ban reaches every action exactly once, in configuration order, whatever
    calls raise; the ID is then banned, and nothing else changes. *)
Theorem C11_ban_reaches_every_action : forall orc s tk now ra,
  now <= MAX_TIME -> overb (bm_time (as_bm s)) now tk = false -> ~ is_banned (t_id tk) s ->
  exists s', check_ban_one orc tk now ra s = (s', Some (1%nat, ra))
    /\ new_calls s s' ((if t_restored tk then [] else [CObserver (t_id tk)])
                       ++ map (fun n => CBan n (t_id tk)) (wanting (t_restored tk) (as_actions s)))%list
    /\ banned_ids s' = (banned_ids s ++ [t_id tk])%list
    /\ (exists t, dget (t_id tk) (bm_list (as_bm s')) = Some t /\ t_banned t = true /\ t_id t = t_id tk
                  /\ t_time t = t_time tk /\ t_bantime t = t_bantime tk)
    /\ (forall i, i <> t_id tk -> dget i (bm_list (as_bm s')) = dget i (bm_list (as_bm s)))
    /\ as_queue s' = as_queue s /\ sg (as_actions s') = sg (as_actions s).
Proof.
  intros orc s tk now ra HM Ho Hn. apply over_eob in Ho; [|exact HM].
  destruct (fresh_ban orc s tk now ra Ho Hn) as (s' & E & NC & BI & G & O & Q & _ & _ & SG & _).
  exists s'. repeat (split; [assumption|]). exact SG.
Qed.

(** The manual ban command: exactly the listed IDs that are not banned become banned, in
    order, and the ban calls are exactly theirs. *)
Theorem C11_manual_ban : forall orc sub s0 ops ids now s' n,
  fresh_acts s0 -> now <= MAX_TIME ->
  let s := as_run orc sub s0 ops in
  add_banned_ip orc ids now s = (s', Some n) ->
  let tks := map (fun id => with_isban true (new_ticket id now [] 0)) ids in
  banned_ids s' = serve (bm_time (as_bm s)) now tks (banned_ids s)
  /\ exists tr, as_trace s' = (as_trace s ++ tr)%list
     /\ filter is_ban_call (map fst tr) = serve_calls (bm_time (as_bm s)) now (as_actions s) tks (banned_ids s).
Proof.
  intros orc sub s0 ops ids now s' n HF HM s E tks.
  destruct (wf_fresh orc sub s0 ops HF) as [W N]. fold s in W, N.
  unfold add_banned_ip in E. destruct (check_ban_list_serve orc now _ HM _ _ _ _ _ W E) as (k&Hk&Hr&W'&B&S&Q&T&NX&TR&R).
  cbn zeta in *. rewrite Hr in B, TR by discriminate. rewrite firstn_all in B, TR. auto.
Qed.

Definition actA := mkAct false false false true true true (Some 0) 1.
Definition actB := mkAct false true false true true false (Some 0) 2.
Definition actN := mkAct true false false true true false (Some 0) 3.
Definition jail0 := with_actions [("A", actA); ("B", actB)] (as_init true).
Definition tkX := new_ticket "192.0.2.1" 1000 [] 1.
(** the first action always raises *)
Definition orcF : oracle := fun _ c =>
  match c with CBan "A" _ | CUnban "A" _ => mkResp true false false | CFlush _ => mkResp false false false | _ => mkResp false true false end.

Example C11_demo : overb (bm_time (as_bm jail0)) 1000 tkX = false /\ ~ is_banned "192.0.2.1" jail0
  /\ map fst (as_trace (fst (check_ban_one orcF tkX 1000 [] jail0))) = [CObserver "192.0.2.1"; CBan "A" "192.0.2.1"; CBan "B" "192.0.2.1"].
Proof. split; [reflexivity|]. split; [intros []|reflexivity]. Qed.

(** ** C12  For every action that bans restored tickets and whose bulk flush, if any, falls
    back to single unbans, the ban and unban calls of each ID alternate, beginning with a
    ban, in every history; an ID is banned in the action's firewall exactly while it is in
    the ban list, and once the action has been stopped nothing is left behind. *)
Theorem C12_ban_unban_alternate : forall orc sub s0 ops name a id,
  quiet_checks orc -> fresh_acts s0 -> dget name (as_actions s0) = Some a -> plain a ->
  let s := as_run orc sub s0 ops in
  fw_after name id (as_trace s) <> Broken
  /\ (In name (action_names s) -> (fw_after name id (as_trace s) = Opened <-> is_banned id s))
  /\ (~ In name (action_names s) -> fw_after name id (as_trace s) = Closed).
Proof.
  intros orc sub s0 ops name a id Q F G P s.
  destruct (tracks_run orc name sub ops Q s0 (fresh_tracks _ _ _ F G P)) as (W & N & H). fold s in W, N, H.
  destruct H as [[(b & Gb & Pb) H]|[Hn H]]; rewrite H.
  - split; [destruct (dmem id _); discriminate|]. split.
    + intros _. unfold is_banned, banned_ids. rewrite ban_list_In. destruct (dmem id _); cbn; split; congruence.
    + intros X. exfalso. apply X. eapply dget_key; eauto.
  - split; [discriminate|]. split; [|reflexivity]. intros X. exfalso. apply dmem_In in X. rewrite dmem_dget, Hn in X. discriminate.
Qed.

Definition subNone : string -> option (string -> bool) := fun _ => None.
Definition hist1 := [OPut tkX; ORound true 1000 0; OBanIP ["192.0.2.2"] 1010; OUnbanIP ["192.0.2.1"] true false; ORound false 5000 1; OPut (new_ticket "192.0.2.1" 5000 [] 1); ORound true 5000 0; OStop].
Example C12_demo : quiet_checks orcF /\ fresh_acts jail0 /\ plain actA /\ plain actB
  /\ map fst (filter (fun ev => match fst ev with CBan "A" "192.0.2.1" | CUnban "A" "192.0.2.1" => true | _ => false end)
               (as_trace (as_run orcF subNone jail0 hist1)))
     = [CBan "A" "192.0.2.1"; CUnban "A" "192.0.2.1"; CBan "A" "192.0.2.1"; CUnban "A" "192.0.2.1"].
Proof.
  split; [intros tr n; reflexivity|]. split.
  - split; [|split; [split; reflexivity|reflexivity]]. constructor; [intros [X|[]]; discriminate|]. constructor; [intros []|constructor].
  - split; [split; auto|]. split; [split; auto|]. vm_compute. reflexivity.
Qed.

(** The commands run in another thread than the main loop.  If an unban command falls
    between the entry of a new ban and its ban actions, the action is asked to unban first
    and to ban afterwards, and the ID stays in the firewall although it is not banned. *)
Theorem C12_concurrent_unban_refuted : exists orc tk now,
  let s1 := fst (ban_begin orc tk now jail0) in
  let s2 := fst (remove_banned orc subNone [t_id tk] true false s1) in
  let s3 := ban_actions orc tk s2 in
  fw_after "A" (t_id tk) (as_trace s3) = Broken /\ banned_ids s3 = []
  /\ exists tr r, as_trace s3 = (tr ++ [(CBan "B" (t_id tk), r)])%list.
Proof.
  exists orcF, tkX, 1000. cbn zeta. split; [reflexivity|]. split; [reflexivity|].
  eexists [_; _; _; _; _], _. reflexivity.
Qed.

(** An action that opts out of restored bans is asked to unban what it never banned. *)
Theorem C12_norestored_refuted : exists orc s0 ops,
  quiet_checks orc /\ fresh_acts s0 /\ dget "N" (as_actions s0) = Some actN
  /\ fw_after "N" "192.0.2.1" (as_trace (as_run orc subNone s0 ops)) = Broken.
Proof.
  exists orcF, (with_actions [("N", actN)] (as_init true)), [OPut (with_restored true tkX); ORound true 1000 0; OUnbanIP ["192.0.2.1"] true false].
  split; [intros tr n; reflexivity|]. split.
  - split; [|split; [split; reflexivity|reflexivity]]. constructor; [intros []|constructor].
  - split; reflexivity.
Qed.

(** An action with bulk flush and consistency check whose flush raises keeps the ID in its
    firewall after the ban list was flushed. *)
Definition actC := mkAct false true false true true true (Some 0) 4.
Definition orcFlush : oracle := fun _ c => match c with CFlush _ => mkResp true false false | _ => mkResp false true false end.
Theorem C12_failed_flush_refuted : exists orc s0 ops,
  quiet_checks orc /\ fresh_acts s0 /\ dget "C" (as_actions s0) = Some actC
  /\ let s := as_run orc subNone s0 ops in
     banned_ids s = [] /\ fw_after "C" "192.0.2.1" (as_trace s) = Opened.
Proof.
  exists orcFlush, (with_actions [("C", actC)] (as_init true)), [OPut tkX; ORound true 1000 0; OFlush true].
  split; [intros tr n; reflexivity|]. split.
  - split; [|split; [split; reflexivity|reflexivity]]. constructor; [intros []|constructor].
  - split; [reflexivity|]. split; reflexivity.
Qed.

(** ** C13  A flush empties the ban list and asks every action that did not flush in bulk to
    unban each banned ID exactly once, in order; every action with a flush is asked to
    flush exactly once. *)
Theorem C13_flush_exact : forall orc sub s0 ops db s' k,
  fresh_acts s0 ->
  let s := as_run orc sub s0 ops in
  flush_ban orc db None s = (s', Some k) ->
  k = length (banned_ids s) /\ banned_ids s' = []
  /\ sg (as_actions s') = sg (as_actions s) /\ as_queue s' = as_queue s
  /\ exists ftr rest, as_trace s' = (as_trace s ++ ftr ++ rest)%list
     /\ filter is_flush (map fst ftr) = map CFlush (map fst (filter (fun kv => ac_flush (snd kv)) (as_actions s)))
     /\ Forall (about (action_names s)) ftr
     /\ map fst rest = ((if db && as_db s then [CDbDel None] else [])
          ++ flat_map (fun id => map (fun n => CUnban n id)
               (map fst (filter (fun kv => negb (in_bulk ftr (fst kv) (snd kv))) (as_actions s)))) (banned_ids s))%list.
Proof.
  intros orc sub s0 ops db s' k HF s E. destruct (wf_fresh orc sub s0 ops HF) as [W N]. fold s in W, N.
  destruct (flush_ban_all orc db s s' k N W E) as (A & B & C & D & _ & X).
  split; [exact A|]. split; [unfold banned_ids, ban_list; now rewrite B|]. auto.
Qed.

(** If no consistency check raises, the flush completes; stopping the jail then stops every
    action exactly once, in reverse order, and none remains. *)
Theorem C13_stop : forall orc sub s0 ops,
  quiet_checks orc -> fresh_acts s0 ->
  let s := as_run orc sub s0 ops in
  exists s1 k s', flush_ban orc false None s = (s1, Some k) /\ thread_end orc s = (s', true)
    /\ banned_ids s' = [] /\ as_actions s' = [] /\ new_calls s1 s' (map CStop (rev (action_names s))).
Proof.
  intros orc sub s0 ops Q HF s. destruct (wf_fresh orc sub s0 ops HF) as [W N]. fold s in W, N.
  pose proof (flush_ban_quiet orc false None s Q) as F.
  destruct (flush_ban orc false None s) as [s1 [k|]] eqn:E; [|cbn in F; congruence].
  destruct (flush_ban_all orc false s s1 k N W E) as (A & B & C & D & _ & X).
  assert (N1 : NoDup (action_names s1)) by (unfold action_names; rewrite (sg_keys _ _ C); exact N).
  destruct (stop_actions_all orc s1 N1) as (S1 & S2 & S3 & S4). cbn zeta in *.
  exists s1, k, (stop_actions orc (dkeys (as_actions s1)) s1). split; [reflexivity|].
  split; [unfold thread_end; now rewrite E|]. split; [unfold banned_ids, ban_list; now rewrite S1, B|].
  split; [exact S3|]. replace (action_names s) with (action_names s1); [exact S4|]. apply sg_keys. exact C.
Qed.

Example C13_demo :
  let s := as_run orcF subNone jail0 [OBanIP ["192.0.2.1"; "192.0.2.2"] 1000] in
  map fst (skipn (length (as_trace s)) (as_trace (fst (thread_end orcF s))))
  = [CFlush "B"; CUnban "A" "192.0.2.1"; CUnban "B" "192.0.2.1"; CUnban "A" "192.0.2.2"; CUnban "B" "192.0.2.2"; CStop "B"; CStop "A"].
Proof. vm_compute. reflexivity. Qed.

(** If a consistency check raises during the flush, the banned IDs are forgotten without
    any unban, and the actions are not stopped. *)
Definition orcCheck : oracle := fun _ c =>
  match c with CFlush _ | CCheck _ => mkResp true false false | _ => mkResp false true false end.
Theorem C13_raising_check_refuted : exists orc s0 ops,
  fresh_acts s0 /\ dget "C" (as_actions s0) = Some actC
  /\ let s := as_run orc subNone s0 ops in
     let s' := fst (thread_end orc s) in
     banned_ids s = ["192.0.2.1"] /\ banned_ids s' = [] /\ snd (thread_end orc s) = false
     /\ fw_after "C" "192.0.2.1" (as_trace s') = Opened
     /\ forall n, ~ In (CStop n) (map fst (as_trace s')).
Proof.
  exists orcCheck, (with_actions [("C", actC)] (as_init true)), [OPut tkX; ORound true 1000 0].
  split; [split; [constructor; [intros []|constructor] | split; [split; reflexivity|reflexivity]]|].
  split; [reflexivity|]. cbn zeta. repeat (split; [reflexivity|]).
  intros n. vm_compute. intuition discriminate.
Qed.

(** ** C14  Between two expiry checks of the main loop fewer than ten bans happen and at most
    nine rounds pass, whatever arrives; a check is allowed to lift between 2 and 20 bans,
    and at least twice as many as its own round banned. *)
Theorem C14_checks_not_starved : forall orc sub s0 ops rs s' cnt' l,
  fresh_acts s0 -> run_regular orc sub s0 ops -> Forall (fun r => snd r <= MAX_TIME) rs ->
  rounds orc rs 0 (as_run orc sub s0 ops) = Some (s', cnt', l) ->
  (forall b lim, In (b, lim) l -> (b <= 10)%nat /\ match lim with Some k => (2 <= k <= 20)%nat /\ (2 * b <= k)%nat | None => True end)
  /\ (forall l1 mid l2, l = (l1 ++ mid ++ l2)%list -> Forall (fun x => snd x = None) mid ->
        (total_bans mid < 10)%nat /\ (length mid <= 9)%nat).
Proof.
  intros orc sub s0 ops rs s' cnt' l HF HR HT E. destruct (wf_fresh orc sub s0 ops HF) as [W N].
  assert (NX : next_ok (as_bm (as_run orc sub s0 ops))).
  { destruct HF as (N0 & F0 & _). apply next_as_run; auto; [now apply wf_bm_fresh | now apply fresh_next]. }
  destruct (rounds_bound orc rs HT _ _ _ _ _ (conj W NX) E) as (A & B & C & D); [lia|]. split.
  - intros b lim I. destruct (B b lim I) as [B1 B2]. split; [exact B1|]. now destruct lim.
  - intros l1 mid l2 El F. pose proof (C l1 mid l2 El F) as X. split; [exact X|].
    assert (Forall (fun x => (1 <= fst x)%nat) mid).
    { apply Forall_forall. intros [b lim] I. rewrite Forall_forall in F. specialize (F _ I). cbn in F. subst lim.
      apply (B b None). rewrite El. apply in_or_app. right. apply in_or_app. now left. }
    pose proof (total_ge mid H). lia.
Qed.

(** A check with limit [k] lifts exactly the first [k] bans that are over (all of them, if
    there are no more than [k]). *)
Theorem C14_check_lifts : forall orc sub s0 ops ready now cnt s' cnt' b k,
  fresh_acts s0 -> run_regular orc sub s0 ops -> now <= MAX_TIME ->
  let s := as_run orc sub s0 ops in
  main_round orc ready now cnt s = (s', Some (cnt', b, Some k)) ->
  exists s1, (if ready then check_ban orc now s else (s, Some 0%nat)) = (s1, Some b)
    /\ let over := fun kv : string * ticket => overb (bm_time (as_bm s1)) now (snd kv) in
       bm_list (as_bm s') = drop_first over k (bm_list (as_bm s1))
       /\ new_calls s1 s' (flat_map (fun id => map (fun a => CUnban a id) (action_names s1))
                                    (map fst (firstn k (filter over (bm_list (as_bm s1)))))).
Proof.
  intros orc sub s0 ops ready now cnt s' cnt' b k HF HR HM s E.
  destruct (wf_fresh orc sub s0 ops HF) as [W N]. fold s in W, N.
  assert (NX : next_ok (as_bm s)).
  { destruct HF as (N0 & F0 & _). apply next_as_run; auto; [now apply wf_bm_fresh | now apply fresh_next]. }
  destruct (main_round_split orc _ _ _ _ _ _ _ _ HM W E) as (Hb & s1 & E1 & -> & Hk & _ & ->).
  exists s1. split; [exact E1|].
  assert (H1 : wf_bm (as_bm s1) /\ next_ok (as_bm s1)).
  { destruct ready; [|injection E1 as <- _; auto]. unfold check_ban in E1.
    destruct (check_ban_queue_serve orc now _ HM _ _ _ _ _ W E1) as (j&_&_&_&_&W1&_&_&_&N1&_). auto. }
  destruct (check_unban_exact orc now k s1 (proj1 H1) (proj2 H1) HM) as (A & _ & B); [lia|]. cbn zeta in *. auto.
Qed.

(** But the checks need not keep pace: with one ban per round, ten bans are followed by a
    check that may lift only two, although thirty bans are over. *)
Fixpoint names_of (p : string) (n : nat) : list string :=
  match n with O => [] | S k => (p ++ String (Ascii.ascii_of_nat (48 + k)) "") :: names_of p k end.
Definition tenrounds : list as_op :=
  flat_map (fun x => [OPut (new_ticket (fst x) 10000 [] 1); ORound true 10000 (snd x)])
           (combine (names_of "n" 10) (seq 0 10)).
Theorem C14_pace_refuted : exists orc s0 ops,
  fresh_acts s0 /\ let s := as_run orc subNone s0 ops in
  length (filter (overb (bm_time (as_bm s)) 10000) (dvals (bm_list (as_bm s)))) = 30%nat
  /\ let s' := as_run orc subNone s tenrounds in
     length (banned_ids s') = 38%nat /\ length (puts tenrounds) = 10%nat.
Proof.
  exists orcF, jail0, [OBanIP (names_of "o" 30) 1000]. split.
  - split; [|split; [split; reflexivity|reflexivity]]. constructor; [intros [X|[]]; discriminate|]. constructor; [intros []|constructor].
  - vm_compute. repeat split.
Qed.

Example C14_demo : exists s' c, rounds orcF [(true, 10000); (true, 10000)] 0
    (as_run orcF subNone jail0 [OBanIP (names_of "o" 4) 1000; OPut (new_ticket "x" 10000 [] 1)]) = Some (s', c, [(1%nat, None); (0%nat, Some 20%nat)])
    /\ banned_ids s' = ["x"].
Proof. eexists. eexists. split; vm_compute; reflexivity. Qed.

(** ** C15  Reload: exactly the configured actions known before are kept, as the same
    objects, each reloaded once; the others are removed after every banned ID was unbanned
    through them; the ban list and the queue stay. *)
Theorem C15_reload_diff : forall orc sub s0 ops cfg s' ok,
  quiet_reloads orc -> quiet_checks orc -> fresh_acts s0 -> NoDup (map fst cfg) ->
  let s := as_run orc sub s0 ops in
  (forall n a, dget n (as_actions s) = Some a -> ac_reload a = true /\ ac_clear a = true) ->
  reload_cycle orc cfg s = (s', ok) ->
  ok = true
  /\ action_names s' = filter (fun n => inb n (map fst cfg)) (action_names s)
  /\ (forall n a, In n (action_names s') -> dget n (as_actions s) = Some a ->
        exists a', dget n (as_actions s') = Some a' /\ same_action a a')
  /\ as_bm s' = as_bm s /\ as_queue s' = as_queue s /\ as_reload s' = None
  /\ exists gone rl ftr rest,
      map fst gone = (filter (fun n => negb (inb n (map fst cfg))) (action_names s)
                     ++ filter (fun n => negb (inb n (action_names s))) (map fst cfg))%list
      /\ as_trace s' = (as_trace s ++ rl ++ ftr ++ rest)%list
      /\ map fst rl = map CReload (filter (fun n => inb n (action_names s)) (map fst cfg))
      /\ filter is_flush (map fst ftr) = map CFlush (map fst (filter (fun kv => ac_flush (snd kv)) gone))
      /\ Forall (about (map fst gone)) ftr
      /\ map fst rest = (flat_map (fun id => map (fun n => CUnban n id)
               (map fst (filter (fun kv => negb (in_bulk ftr (fst kv) (snd kv))) gone))) (banned_ids s)
            ++ map CStop (rev (map fst gone)))%list.
Proof.
  intros orc sub s0 ops cfg s' ok QR QC HF NC s HA E. destruct (wf_fresh orc sub s0 ops HF) as [W N].
  exact (reload_ok orc cfg s s' ok QR QC N W NC HA E).
Qed.

Example C15_demo :
  let s := as_run orcF subNone jail0 [OBanIP ["192.0.2.1"] 1000] in
  let '(s', ok) := reload_cycle orcF [("B", actB)] s in
  ok = true /\ as_actions s' = [("B", actB)] /\ banned_ids s' = ["192.0.2.1"]
  /\ map fst (skipn (length (as_trace s)) (as_trace s')) = [CReload "B"; CUnban "A" "192.0.2.1"; CStop "A"].
Proof. vm_compute. repeat split. Qed.

(** The new configuration is not what the jail has after the reload: an action mentioned
    for the first time is dropped again ... *)
Theorem C15_new_action_refuted : exists orc cfg,
  let '(s', ok) := reload_cycle orc cfg jail0 in
  ok = true /\ map fst cfg = ["A"; "B"; "new"] /\ action_names s' = ["A"; "B"].
Proof. exists orcF, [("A", actA); ("B", actB); ("new", actA)]. vm_compute. repeat split. Qed.

(** ... and so is a configured action that knows reload but not the reset of parameters. *)
Definition actP := mkAct false false false true false false None 5.
Theorem C15_python_action_refuted : exists orc cfg,
  let '(s', ok) := reload_cycle orc cfg (with_actions [("P", actP)] (as_init true)) in
  ok = true /\ map fst cfg = ["P"] /\ action_names s' = [].
Proof. exists orcF, [("P", actP)]. vm_compute. repeat split. Qed.

(** ** C16  The unban command with arguments [ids]: exactly the IDs they stand for are
    lifted, everything else stays as it is, each action is asked once per lifted ID, the
    stored bans are deleted, and the answer is the number of lifted IDs or, without
    if-exists, all arguments that lifted nothing. *)
Theorem C16_unban_exact : forall orc sub s0 ops ids db ifexists s' r,
  fresh_acts s0 ->
  let s := as_run orc sub s0 ops in
  remove_banned orc sub ids db ifexists s = (s', r) ->
  left_with s s' (lifted sub ids (banned_ids s))
  /\ banned_ids s' = without (lifted sub ids (banned_ids s)) (banned_ids s)
  /\ new_calls s s' (unban_calls sub (db && as_db s) (action_names s) ids (banned_ids s))
  /\ r = match (if ifexists then [] else not_found sub ids (banned_ids s)) with
         | [] => UCount (length (lifted sub ids (banned_ids s)))
         | m => UMissing m
         end.
Proof.
  intros orc sub s0 ops ids db ife s' r HF s E. destruct (wf_fresh orc sub s0 ops HF) as [W N]. fold s in W, N.
  unfold remove_banned in E. destruct (remove_list_spec orc sub db ife ids [] 0 s s' r W E) as (A & B & C).
  split; [exact A|]. split; [now apply left_with_ids|]. split; [exact B|]. exact C.
Qed.

(** Without subnets: the banned IDs that are not listed remain. *)
Theorem C16_plain_ids : forall orc s0 ops ids db ifexists s' r,
  fresh_acts s0 ->
  let s := as_run orc subNone s0 ops in
  remove_banned orc subNone ids db ifexists s = (s', r) ->
  banned_ids s' = filter (fun b => negb (inb b ids)) (banned_ids s).
Proof.
  intros orc s0 ops ids db ife s' r HF s E.
  destruct (C16_unban_exact orc subNone s0 ops ids db ife s' r HF E) as (_ & B & _). fold s in B. rewrite B.
  apply filter_ext_in. intros b Ib. f_equal. clear -Ib.
  revert Ib. generalize (banned_ids s) as bans. induction ids as [|i ids IH]; intros bans Ib; [reflexivity|].
  cbn [lifted]. change (inb b (i :: ids)) with (eqb b i || inb b ids).
  unfold inb at 1. rewrite existsb_app. fold (inb b (hits subNone bans i)).
  fold (inb b (lifted subNone ids (without (hits subNone bans i) bans))).
  assert (H : inb b (hits subNone bans i) = eqb b i).
  { unfold hits, subNone. destruct (inb i bans) eqn:Ei; [cbn; now rewrite orb_false_r|]. cbn.
    destruct (eqb_spec b i) as [->|]; [|reflexivity]. apply inb_In in Ib. congruence. }
  rewrite H. destruct (eqb_spec b i) as [->|Nb]; [reflexivity|]. cbn [orb]. apply IH.
  unfold without. apply filter_In. split; [exact Ib|]. now rewrite H.
Qed.

Definition subNet : string -> option (string -> bool) :=
  fun i => if eqb i "192.0.2.0/24" then Some (fun b => String.prefix "192.0.2." b) else None.
Example C16_demo :
  let s := as_run orcF subNet jail0 [OBanIP ["192.0.2.1"; "10.0.0.1"; "192.0.2.2"] 1000] in
  let '(s', r) := remove_banned orcF subNet ["192.0.2.0/24"; "10.0.0.9"] true false s in
  r = UMissing ["10.0.0.9"] /\ banned_ids s' = ["10.0.0.1"]
  /\ map fst (skipn (length (as_trace s)) (as_trace s'))
     = [CDbDel (Some "192.0.2.0/24"); CDbDel (Some "192.0.2.1"); CUnban "A" "192.0.2.1"; CUnban "B" "192.0.2.1";
        CDbDel (Some "192.0.2.2"); CUnban "A" "192.0.2.2"; CUnban "B" "192.0.2.2"; CDbDel (Some "10.0.0.9")].
Proof. vm_compute. repeat split. Qed.

(** ** C17  The queue: at every point of every history, the tickets put so far are the
    tickets taken so far followed by the waiting ones, in order. *)
Theorem C17_fifo_nothing_lost : forall orc sub s0 ops,
  fresh_acts s0 -> as_queue s0 = [] ->
  exists taken, puts ops = (taken ++ as_queue (as_run orc sub s0 ops))%list.
Proof. intros. eapply queue_run; eauto. Qed.

(** A round that does not raise serves the first ten waiting tickets, in order: the fresh
    IDs among them become banned in that order, and the ban calls are exactly theirs. *)
Theorem C17_served_in_order : forall orc sub s0 ops now s' n,
  fresh_acts s0 -> now <= MAX_TIME ->
  let s := as_run orc sub s0 ops in
  check_ban orc now s = (s', Some n) ->
  let tks := firstn 10 (as_queue s) in
  as_queue s' = skipn 10 (as_queue s)
  /\ banned_ids s' = serve (bm_time (as_bm s)) now tks (banned_ids s)
  /\ exists tr, as_trace s' = (as_trace s ++ tr)%list
     /\ filter is_ban_call (map fst tr) = serve_calls (bm_time (as_bm s)) now (as_actions s) tks (banned_ids s).
Proof.
  intros orc sub s0 ops now s' n HF HM s E tks.
  destruct (wf_fresh orc sub s0 ops HF) as [W N]. fold s in W, N. unfold check_ban in E.
  destruct (check_ban_queue_serve orc now _ HM _ _ _ _ _ W E) as (k&Hk&Hr&_&Q&W'&B&S&T&NX&TR&R).
  cbn zeta in *. rewrite Hr in * by discriminate. auto.
Qed.

Example C17_demo :
  let s := as_run orcF subNone jail0 [OPut tkX; OPut (new_ticket "192.0.2.2" 1000 [] 1); OPut tkX] in
  exists s', check_ban orcF 1000 s = (s', Some 2%nat) /\ as_queue s' = [] /\ banned_ids s' = ["192.0.2.1"; "192.0.2.2"].
Proof. eexists. vm_compute. repeat split. Qed.

(** ** C53  A repeated ticket of a banned ID: if the environment of some actions was rebuilt
    since its ban, exactly those are asked to repeat the ban, in order, up to the first that
    raises; when none raises the ban is up to date again, otherwise it stays due. *)
Theorem C53_reban_exact : forall orc s tk now s' r b,
  now <= MAX_TIME -> overb (bm_time (as_bm s)) now tk = false ->
  dget (t_id tk) (bm_list (as_bm s)) = Some b -> t_banned b = true -> t_epoch b < as_epoch s ->
  (forall n a, In (n, a) (as_actions s) -> ac_epoch a <> None) ->
  check_ban_one orc tk now [] s = (s', r) ->
  let ra := rebuilt_since (t_epoch b) (as_actions s) in
  let targets := match ra with [] => action_names s | _ => ra end in
  banned_ids s' = banned_ids s
  /\ (forall i, i <> t_id tk -> dget i (bm_list (as_bm s')) = dget i (bm_list (as_bm s)))
  /\ as_queue s' = as_queue s
  /\ exists k tr b', (k <= length targets)%nat /\ as_trace s' = (as_trace s ++ tr)%list
     /\ map fst tr = map (fun n => CReban n (t_id tk)) (firstn k targets)
     /\ dget (t_id tk) (bm_list (as_bm s')) = Some b' /\ t_time b' = t_time b
     /\ ((r = Some (1%nat, ra) /\ k = length targets /\ Forall (fun ev => r_raise (snd ev) = false) tr
          /\ t_banned b' = true /\ (as_epoch s' <> 0 -> t_epoch b' = as_epoch s'))
         \/ (r = Some (0%nat, ra) /\ t_epoch b' = t_epoch b
             /\ exists tr0 ev, tr = (tr0 ++ [ev])%list /\ r_raise (snd ev) = true
                /\ Forall (fun ev => r_raise (snd ev) = false) tr0)).
Proof.
  intros orc s tk now s' r b HM Ho G Hb He HA E. apply over_eob in Ho; [|exact HM].
  exact (known_reban orc tk now s s' r b E G Hb Ho He HA).
Qed.

(** If nothing was rebuilt, a repeated ticket makes no call at all, unless it is more than 3
    seconds younger than the ban and the last check is more than 3 seconds ago: then every
    action that can check itself is asked once, in order, and a ban is repeated only if a
    check (or a repetition) rebuilt something. *)
Theorem C53_checks_limited : forall orc s tk now s' r b,
  now <= MAX_TIME -> overb (bm_time (as_bm s)) now tk = false ->
  dget (t_id tk) (bm_list (as_bm s)) = Some b -> t_banned b = true -> t_epoch b = as_epoch s ->
  quiet_checks orc ->
  check_ban_one orc tk now [] s = (s', r) ->
  let due := ((3 <? t_time tk - t_time b) && (as_last s + 3 <? now))%Z in
  (due = false -> r = Some (0%nat, []) /\ as_trace s' = as_trace s /\ banned_ids s' = banned_ids s
     /\ as_last s' = as_last s)
  /\ (due = true -> exists cs,
        new_calls s s' (map CCheck (map fst (filter (fun kv => ac_check (snd kv)) (as_actions s))) ++ cs)%list
        /\ as_last s' = now /\ banned_ids s' = banned_ids s
        /\ (as_epoch s' = as_epoch s -> cs = [])
        /\ Forall (fun c => exists n, c = CReban n (t_id tk)) cs).
Proof.
  intros orc s tk now s' r b HM Ho G Hb He Q E. apply over_eob in Ho; [|exact HM].
  exact (known_uptodate orc tk now s s' r b E G Hb Ho He Q).
Qed.

(** the check of A rebuilds its environment the first time *)
Definition orcR : oracle := fun tr c =>
  match c with
  | CCheck _ => mkResp false true (negb (existsb (fun ev => match fst ev with CCheck _ => true | _ => false end) tr))
  | _ => mkResp false true false
  end.
Example C53_demo :
  let s := as_run orcR subNone jail0 [OPut tkX; ORound true 1000 0; OPut (new_ticket "192.0.2.2" 1001 [] 1); ORound true 1001 0] in
  let s1 := as_run orcR subNone s [OPut (new_ticket "192.0.2.1" 1010 [] 1); ORound true 1010 0;
                                   OPut (new_ticket "192.0.2.2" 1012 [] 1); ORound true 1012 0] in
  map fst (skipn (length (as_trace s)) (as_trace s1)) = [CCheck "A"; CReban "A" "192.0.2.1"; CReban "A" "192.0.2.2"].
Proof. vm_compute. reflexivity. Qed.

(** The list of actions to repeat is computed once per pass: a ticket that needs more of
    them than the first one gets only those of the first one, and is then taken for up to
    date, so that it is never repeated in the others. *)
Definition bannedAt (id : string) (e : Z) := with_epoch e (with_banned true (new_ticket id 1000 [] 1)).
Theorem C53_batch_refuted : exists orc s now,
  (forall tr c, r_raise (orc tr c) = false)
  /\ dget "192.0.2.2" (bm_list (as_bm s)) = Some (bannedAt "192.0.2.2" 0)
  /\ rebuilt_since 0 (as_actions s) = ["A"; "B"]
  /\ let s' := fst (check_ban orc now s) in
     map fst (as_trace s') = [CReban "B" "192.0.2.1"; CReban "B" "192.0.2.2"]
     /\ option_map t_epoch (dget "192.0.2.2" (bm_list (as_bm s'))) = Some (as_epoch s').
Proof.
  exists (fun _ _ => mkResp false true false).
  exists (mkActs [("A", with_acepoch (Some 1) actA); ("B", with_acepoch (Some 2) actB)]
            (bm_with_list [("192.0.2.1", bannedAt "192.0.2.1" 1); ("192.0.2.2", bannedAt "192.0.2.2" 0)] bm_init)
            2 0 [new_ticket "192.0.2.1" 1001 [] 1; new_ticket "192.0.2.2" 1001 [] 1] None true []), 1001.
  split; [reflexivity|]. vm_compute. repeat split.
Qed.

(** ** C54  Prolonging: exactly the actions that can prolong (and did not opt out of restored
    bans) are asked, once each, and only while the ID is still banned; nothing else changes. *)
Theorem C54_prolong_reaches : forall orc t s,
  let s' := prolong_ban orc t s in
  as_bm s' = as_bm s /\ as_queue s' = as_queue s /\ sg (as_actions s') = sg (as_actions s)
  /\ new_calls s s' (if inb (t_id t) (banned_ids s)
       then map (fun n => CProlong n (t_id t)) (map fst (filter (fun kv => ac_prolong (snd kv))
              (filter (fun kv => negb (t_restored t && ac_norestored (snd kv))) (as_actions s))))
       else []).
Proof.
  intros orc t s. destruct (prolong_calls orc t s) as ((F1 & F2 & F3 & F4 & F5 & F6) & N). cbn zeta in *.
  do 3 (split; [assumption|]). rewrite filter_filter_and. exact N.
Qed.
Definition actL := mkAct false false true true true false (Some 0) 6.
Example C54_demo :
  let s := as_run orcF subNone (with_actions [("A", actA); ("L", actL)] (as_init true)) [OBanIP ["192.0.2.1"] 1000] in
  map fst (skipn (length (as_trace s)) (as_trace (prolong_ban orcF tkX s))) = [CProlong "L" "192.0.2.1"]
  /\ as_trace (prolong_ban orcF (new_ticket "192.0.2.9" 1000 [] 1) s) = as_trace s.
Proof. vm_compute. split; reflexivity. Qed.

(** Starting the thread of a jail starts each of its actions exactly once, in their order, whether
    or not some of them raise, and bans or unbans nothing. *)
Theorem C11_started_once : forall orc s,
  let s' := thread_start orc s in
  as_bm s' = as_bm s /\ as_queue s' = as_queue s /\ sg (as_actions s') = sg (as_actions s)
  /\ new_calls s s' (map CStart (map fst (as_actions s))).
Proof.
  intros orc s. unfold thread_start. destruct (call_all_calls orc CStart (dkeys (as_actions s)) s) as ((F1 & F2 & F3 & F4 & F5 & F6) & N & _).
  cbn zeta in *. do 3 (split; [assumption|]). exact N.
Qed.
Example C11_started_demo :
  map fst (as_trace (thread_start orcF (with_actions [("A", actA); ("L", actL)] (as_init true)))) = [CStart "A"; CStart "L"].
Proof. reflexivity. Qed.

(** Outside a reload an action whose name is already used is refused and nothing changes; a new
    name adds exactly this action. *)
Theorem C15_duplicate_refused : forall s name new,
  add_action name new false s =
    if inb name (map fst (as_actions s)) then (s, false)
    else (with_actions (as_actions s ++ [(name, new)])%list s, true).
Proof.
  intros s name new. unfold add_action. destruct (dget name (as_actions s)) as [a|] eqn:E.
  - replace (inb name (map fst (as_actions s))) with true; [reflexivity|]. symmetry. apply inb_In.
    apply dmem_In. unfold dmem. now rewrite E.
  - replace (inb name (map fst (as_actions s))) with false; [|symmetry; apply inb_false; now apply dget_None].
    rewrite dset_notin; [reflexivity|]. now apply dget_None.
Qed.
Example C15_duplicate_demo :
  let s := with_actions [("A", actA)] (as_init true) in
  snd (add_action "A" actL false s) = false /\ snd (add_action "L" actL false s) = true.
Proof. vm_compute. split; reflexivity. Qed.

Print Assumptions C11_ban_reaches_every_action.
Print Assumptions C11_manual_ban.
Print Assumptions C12_ban_unban_alternate.
Print Assumptions C12_concurrent_unban_refuted.
Print Assumptions C12_norestored_refuted.
Print Assumptions C12_failed_flush_refuted.
Print Assumptions C13_flush_exact.
Print Assumptions C13_stop.
Print Assumptions C13_raising_check_refuted.
Print Assumptions C14_checks_not_starved.
Print Assumptions C14_check_lifts.
Print Assumptions C14_pace_refuted.
Print Assumptions C15_reload_diff.
Print Assumptions C15_new_action_refuted.
Print Assumptions C15_python_action_refuted.
Print Assumptions C16_unban_exact.
Print Assumptions C16_plain_ids.
Print Assumptions C17_fifo_nothing_lost.
Print Assumptions C17_served_in_order.
Print Assumptions C53_reban_exact.
Print Assumptions C53_checks_limited.
Print Assumptions C53_batch_refuted.
Print Assumptions C54_prolong_reaches.
Print Assumptions C11_started_once.
Print Assumptions C11_started_demo.
Print Assumptions C15_duplicate_refused.
Print Assumptions C15_duplicate_demo.
