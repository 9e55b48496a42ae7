(** Properties C06-C10: the list of active bans of one jail. *)
From Verif Require Import Base Ticket_Model BanManager_Model BanManager_Spec BanManager_Proofs.
From Coq Require Import Permutation.
Open Scope string_scope.

(** ** C06  At most one active ban per ID, and the listing is exact.
    [banned_after] only looks at calls and their results. *)
Theorem C06_ban_list_exact : forall bm0 ops bm outs,
  fresh_bm bm0 -> bm_run bm0 ops = (bm, outs) ->
  NoDup (ban_list bm)
  /\ (forall id, In id (ban_list bm) <-> banned_after id (combine ops outs) = true)
  /\ bm_total bm = bm_total bm0 + additions outs.
Proof. exact banned_reachable. Qed.

(** A ban call reports a new ban exactly when the ban is not over and the ID is not
    banned; removal by ID finds a ticket exactly when the ID is banned. *)
Theorem C06_answers : forall bm0 ops bm outs,
  fresh_bm bm0 -> bm_run bm0 ops = (bm, outs) ->
  (forall tk now, snd (add_ban bm tk now) = AAdded <->
       end_of_ban (bm_time bm) tk >= now /\ banned_after (t_id tk) (combine ops outs) = false)
  /\ (forall id, (exists t, snd (pop_ticket bm id) = Some t) <-> banned_after id (combine ops outs) = true).
Proof. exact answers. Qed.

(** What is stored and returned: a new ban is stored as given with its ban count raised by
    one and changes no other entry; removal returns the stored ticket and changes no other
    entry; flushing returns every stored ticket, in order, and leaves none. *)
Theorem C06_contents : forall bm0 ops bm outs,
  fresh_bm bm0 -> bm_run bm0 ops = (bm, outs) ->
  (forall tk now bm', add_ban bm tk now = (bm', AAdded) ->
      bm_list bm' = (bm_list bm ++ [(t_id tk, with_bancount (t_bancount tk + 1)%Z tk)])%list /\ bm_time bm' = bm_time bm)
  /\ (forall id bm' r, pop_ticket bm id = (bm', r) ->
      r = dget id (bm_list bm)
      /\ bm_list bm' = filter (fun kv => negb (eqb (fst kv) id)) (bm_list bm)
      /\ bm_time bm' = bm_time bm /\ bm_total bm' = bm_total bm)
  /\ (forall bm' l, flush_ban_list bm = (bm', l) ->
      l = map snd (bm_list bm) /\ bm_list bm' = [] /\ bm_time bm' = bm_time bm /\ bm_total bm' = bm_total bm).
Proof. exact contents. Qed.

Example tkA := new_ticket "192.0.2.1" 1000 [] 1.
Example tkB := with_bantime (Some (-1)) (new_ticket "192.0.2.2" 1000 [] 1).
Example tkC := with_bantime (Some 10) (new_ticket "192.0.2.3" 1000 [] 1).
Example ops06 := [BAdd tkA 1000; BAdd tkB 1001; BAdd tkC 1001; BAdd tkA 1002; BUnban 1011 20; BPop "192.0.2.2"; BAdd tkC 1012].
Example C06_demo : fresh_bm bm_init /\
  snd (bm_run bm_init ops06)
  = [RAdd AAdded; RAdd AAdded; RAdd AAdded; RAdd AKnown; RList [incr_bancount tkC];
     RTicket (Some (incr_bancount tkB)); RAdd AExpired]
  /\ ban_list (fst (bm_run bm_init ops06)) = ["192.0.2.1"]
  /\ bm_total (fst (bm_run bm_init ops06)) = 3.
Proof. vm_compute. repeat split. Qed.

(** ** C07  A ban is never lifted by the expiry check before its end, a permanent one
    never.  Holds in every state, reachable or not, for any time before the year 4461763. *)
Theorem C07_no_early_unban : forall bm time n bm' l t,
  time <= MAX_TIME -> unban_list bm time n = (bm', l) -> In t l ->
  over (bm_time bm) time t /\ In t (dvals (bm_list bm)).
Proof. exact unban_sound. Qed.

(** What the check does not return stays in the list, unchanged. *)
Theorem C07_others_stay : forall bm0 ops bm outs time n bm' l id t,
  fresh_bm bm0 -> bm_run bm0 ops = (bm, outs) ->
  unban_list bm time n = (bm', l) -> dget id (bm_list bm) = Some t -> ~ In t l ->
  dget id (bm_list bm') = Some t.
Proof.
  intros bm0 ops bm outs time n bm' l id t Hf E Hu Hg Hn.
  pose proof (wf_bm_run ops _ _ _ (wf_bm_fresh _ Hf) E) as [Hd _].
  destruct (unban_list_cases _ _ _ _ _ Hd Hu) as [(->&_)|(_&->&->&_)]; [exact Hg|].
  rewrite <- remove_first by exact Hd. rewrite dget_filter, Hg by exact Hd. cbn.
  destruct (dmem id _) eqn:Em; [|reflexivity]. exfalso. apply Hn. apply dmem_In in Em.
  apply in_map_iff in Em as ([k t'] & Ek & I). cbn in Ek. subst k.
  apply in_map_iff. exists (id, t'). split; [|exact I]. cbn.
  apply firstn_In in I. apply filter_In in I as [I _]. apply In_dget in I; [congruence|exact Hd].
Qed.

Example C07_demo :
  let bm := fst (bm_run bm_init [BAdd tkA 1000; BAdd tkB 1001; BAdd tkC 1001]) in
  map t_id (snd (unban_list bm 1010 20)) = [] /\
  map t_id (snd (unban_list bm 1011 20)) = ["192.0.2.3"] /\
  map t_id (snd (unban_list bm 9000000 20)) = ["192.0.2.1"; "192.0.2.3"].
Proof. vm_compute. repeat split. Qed.

(** ** C08  The next check lifts every ban that is over, oldest first, up to the limit;
    what it leaves out is still due, so repeated calls drain everything.  Holds as long as
    no call shortens active bans; see the refutation below for what happens otherwise. *)
Theorem C08_next_check_lifts : forall bm0 ops bm outs time n bm' l,
  fresh_bm bm0 -> no_shortening_run bm0 ops -> bm_run bm0 ops = (bm, outs) ->
  time <= MAX_TIME -> (1 <= n)%nat -> unban_list bm time n = (bm', l) ->
  let over := fun kv : string * ticket => overb (bm_time bm) time (snd kv) in
  l = map snd (firstn n (filter over (bm_list bm)))
  /\ bm_list bm' = drop_first over n (bm_list bm)
  /\ bm_time bm' = bm_time bm /\ bm_total bm' = bm_total bm.
Proof.
  intros bm0 ops bm outs time n bm' l Hf HS E HM Hn Hu.
  destruct (next_run ops bm0 bm outs (wf_bm_fresh _ Hf) (fresh_next _ Hf) HS E) as [A B].
  exact (unban_exact bm time n bm' l A B HM Hn Hu).
Qed.

Theorem C08_drain : forall bm0 ops bm outs time n k bm' l,
  fresh_bm bm0 -> no_shortening_run bm0 ops -> bm_run bm0 ops = (bm, outs) ->
  time <= MAX_TIME -> (1 <= n)%nat ->
  let over := fun kv : string * ticket => overb (bm_time bm) time (snd kv) in
  (length (filter over (bm_list bm)) <= k * n)%nat ->
  unban_times k bm time n = (bm', l) ->
  l = map snd (filter over (bm_list bm))
  /\ bm_list bm' = filter (fun kv => negb (over kv)) (bm_list bm).
Proof.
  intros bm0 ops bm outs time n k bm' l Hf HS E HM Hn over Hk Hu.
  destruct (next_run ops bm0 bm outs (wf_bm_fresh _ Hf) (fresh_next _ Hf) HS E) as [A B].
  destruct (unban_drain k bm time n bm' l A B HM Hn Hu) as [C D]. cbn zeta in *. split.
  - rewrite C, firstn_all2 by exact Hk. reflexivity.
  - rewrite D. apply drop_first_all. exact Hk.
Qed.

Example C08_demo :
  let ops := [BAdd tkA 1000; BSetTime 700; BAdd tkB 1001; BAdd tkC 1001; BMutate "192.0.2.3" 20] in
  let bm := fst (bm_run bm_init ops) in
  no_shortening_run bm_init ops /\
  map t_id (snd (unban_list bm 5000 1)) = ["192.0.2.1"] /\
  map t_id (snd (unban_times 2 bm 5000 1)) = ["192.0.2.1"; "192.0.2.3"].
Proof.
  cbn zeta. split; [|vm_compute; repeat split].
  cbn [no_shortening_run no_shortening]. repeat (split; [try exact I|]); try exact I.
  - right. vm_compute. split; congruence.
  - intros t H. vm_compute in H. injection H as <-. right. vm_compute. split; congruence.
Qed.

(** Without that condition the claim fails: after the jail's ban time is lowered, a ban
    that is over is not lifted by the next check (the cached next time is stale). *)
Theorem C08_lowered_bantime_refuted : exists ops time,
  let bm := fst (bm_run bm_init ops) in
  (exists t, In t (dvals (bm_list bm)) /\ over (bm_time bm) time t)
  /\ snd (unban_list bm time 20) = [].
Proof.
  exists [BAdd tkA 1000; BSetTime 60], 1100. cbn zeta. split.
  - exists (incr_bancount tkA). split; [left; reflexivity | vm_compute; reflexivity].
  - reflexivity.
Qed.

(** ** C09  A ban call for a banned ID never shortens the ban nor adds a second one; if it
    asks for more, the ban lasts at least as long as asked. *)
Theorem C09_reban_only_extends : forall bm tk now bm' r old,
  bounded (bm_time bm) tk -> dget (t_id tk) (bm_list bm) = Some old -> bounded (bm_time bm) old ->
  0 <= duration_of (bm_time bm) tk \/ duration_of (bm_time bm) tk = -1 ->
  add_ban bm tk now = (bm', r) ->
  r <> AAdded
  /\ (exists new, dget (t_id tk) (bm_list bm') = Some new
       /\ t_time new = t_time old /\ t_id new = t_id old
       /\ end_le (end_of (bm_time bm) old) (end_of (bm_time bm) new)
       /\ (r <> AExpired -> end_le (end_of (bm_time bm) tk) (end_of (bm_time bm) new))
       /\ (r <> AProlonged -> new = old)
       /\ (r = AProlonged <-> end_of_ban (bm_time bm) tk >= now
                               /\ ~ end_le (end_of (bm_time bm) tk) (end_of (bm_time bm) old)))
  /\ (forall id, id <> t_id tk -> dget id (bm_list bm') = dget id (bm_list bm))
  /\ ban_list bm' = ban_list bm /\ bm_total bm' = bm_total bm /\ bm_time bm' = bm_time bm
  /\ bm_next bm' = bm_next bm.
Proof. exact add_known. Qed.

(** With a ticket no older than the known one, the new end is exactly the asked end. *)
Theorem C09_exact_end : forall bm tk now bm' old,
  dget (t_id tk) (bm_list bm) = Some old -> t_time old <= t_time tk ->
  0 <= duration_of (bm_time bm) tk \/ duration_of (bm_time bm) tk = -1 ->
  add_ban bm tk now = (bm', AProlonged) ->
  exists new, dget (t_id tk) (bm_list bm') = Some new
              /\ end_of (bm_time bm) new = end_of (bm_time bm) tk.
Proof.
  intros bm tk now bm' old Eg Ht Hd E. unfold add_ban in E. rewrite Eg in E.
  destruct (_ <? now)%Z; [discriminate|]. destruct (_ >? _)%Z; [|discriminate]. injection E as <-.
  eexists. cbn [bm_list bm_with_list]. rewrite dget_dset_same. split; [reflexivity|].
  unfold end_of, ban_end.
  set (new := with_bantime _ old).
  change (duration_of (bm_time bm) new) with (prolonged_time (bm_time bm) tk old).
  change (t_time new) with (t_time old). unfold prolonged_time.
  change (get_bantime (bm_time bm) tk) with (duration_of (bm_time bm) tk).
  destruct (Z.eqb_spec (duration_of (bm_time bm) tk) (-1)) as [->|P]; [reflexivity|].
  destruct (Z.gtb_spec (t_time tk - t_time old) 0).
  - destruct (Z.eqb_spec (duration_of (bm_time bm) tk + (t_time tk - t_time old)) (-1)); [lia|f_equal; lia].
  - destruct (Z.eqb_spec (duration_of (bm_time bm) tk) (-1)); [lia|f_equal; lia].
Qed.

(** The clock may step back: with an older ticket the ban lasts longer than asked. *)
Theorem C09_exact_end_refuted : exists bm tk now bm',
  add_ban bm tk now = (bm', AProlonged) /\
  exists new, dget (t_id tk) (bm_list bm') = Some new
              /\ end_of (bm_time bm) new = Some 3000 /\ end_of (bm_time bm) tk = Some 2900.
Proof.
  exists (fst (bm_run bm_init [BAdd tkA 1000])), (with_bantime (Some 2000) (new_ticket "192.0.2.1" 900 [] 1)), 1000.
  eexists. split; [vm_compute; reflexivity|]. eexists. split; [vm_compute; reflexivity|].
  vm_compute. split; reflexivity.
Qed.

Example C09_demo :
  let bm := fst (bm_run bm_init [BAdd tkA 1000]) in
  let tk := with_bantime (Some 1000) (new_ticket "192.0.2.1" 1100 [] 1) in
  dget (t_id tk) (bm_list bm) = Some (incr_bancount tkA)
  /\ bounded (bm_time bm) tk /\ bounded (bm_time bm) tkA
  /\ snd (add_ban bm tk 1100) = AProlonged
  /\ dget (t_id tk) (bm_list (fst (add_ban bm tk 1100))) = Some (with_bantime (Some 1100) (incr_bancount tkA)).
Proof. vm_compute. repeat split. Qed.

(** ** C10  The ordered listing holds every banned ID once, by end of ban, first banned
    first among equals. *)
Theorem C10_ordered_listing : forall bm,
  exists l, ban_list_ordered bm = map t_id l
    /\ Permutation l (dvals (bm_list bm))
    /\ sorted_by (end_of_ban (bm_time bm)) l
    /\ stable_by (end_of_ban (bm_time bm)) (dvals (bm_list bm)) l.
Proof.
  intros bm. exists (sort_by (end_of_ban (bm_time bm)) (dvals (bm_list bm))).
  split; [reflexivity | apply sort_by_spec].
Qed.

(** In a reachable state it is a permutation of the plain listing. *)
Theorem C10_same_ids : forall bm0 ops bm outs,
  fresh_bm bm0 -> bm_run bm0 ops = (bm, outs) -> Permutation (ban_list_ordered bm) (ban_list bm).
Proof.
  intros bm0 ops bm outs Hf E.
  pose proof (wf_bm_run ops _ _ _ (wf_bm_fresh _ Hf) E) as [Hd Hk].
  unfold ban_list_ordered. rewrite (proj1 (sort_by_spec _ _)). unfold ban_list, dvals, dkeys.
  rewrite map_map. rewrite (map_ext_in _ fst); [reflexivity|].
  intros [k t] I. cbn. apply Hk. now apply In_dget.
Qed.

Example C10_demo :
  ban_list_ordered (fst (bm_run bm_init [BAdd tkB 1001; BAdd tkA 1000; BAdd tkC 1001]))
  = ["192.0.2.3"; "192.0.2.1"; "192.0.2.2"].
Proof. reflexivity. Qed.

Print Assumptions C06_ban_list_exact.
Print Assumptions C06_answers.
Print Assumptions C07_no_early_unban.
Print Assumptions C07_others_stay.
Print Assumptions C08_next_check_lifts.
Print Assumptions C08_drain.
Print Assumptions C08_lowered_bantime_refuted.
Print Assumptions C09_reban_only_extends.
Print Assumptions C09_exact_end.
Print Assumptions C09_exact_end_refuted.
Print Assumptions C10_ordered_listing.
Print Assumptions C10_same_ids.
Print Assumptions C06_contents.
