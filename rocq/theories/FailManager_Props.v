(** Properties of the failure manager (C01-C05, C51, C52). *)
From Verif Require Import Base Ticket_Model FailManager_Model FailManager_Spec FailManager_Proofs.

(** C01: the retry counter of an ID never exceeds what was reported for it since it was
    last unknown ... *)
Theorem C01_counter_never_exceeds_reports : forall fm ops fm' outs id t,
  fresh_fm fm -> Forall sane_op ops -> fm_run fm ops = (fm', outs) ->
  dget id (fm_list fm') = Some t ->
  exists e, track id (fm_time fm) (combine ops outs) = Some e /\ t_retry t <= e_weight e.
Proof. exact retry_le_reported. Qed.

(** ... and an ID handed out for a ban has reached maxretry by reports since then. *)
Theorem C01_ban_needs_maxretry_reports : forall fm ops fm' outs q fm'' t,
  fresh_fm fm -> Forall sane_op ops -> fm_run fm ops = (fm', outs) ->
  to_ban fm' q = (fm'', Some t) ->
  exists e, track (t_id t) (fm_time fm) (combine ops outs) = Some e /\ fm_retry fm' <= e_weight e.
Proof. exact ban_needs_maxretry. Qed.

(** C02: failures of one ID within one findtime window are counted exactly, and the ID is
    handed out iff there were at least maxretry of them. *)
Theorem C02_exact_in_window : forall fm0 ops0 fm outs0 id t0 ops fm' outs,
  fresh_fm fm0 -> Forall sane_op ops0 -> fm_run fm0 ops0 = (fm, outs0) ->
  dget id (fm_list fm) = None ->
  Forall sane_op ops -> Forall (window_op id t0 (fm_time fm)) ops ->
  fm_run fm ops = (fm', outs) -> not_handed_out id outs ->
  hd_error (report_times id ops) = Some t0 ->
  (forall t, In t (report_times id ops) -> t - fm_time fm <= t0) ->
  exists t, dget id (fm_list fm') = Some t
    /\ t_retry t = Z.of_nat (length (report_times id ops))
    /\ snd (to_ban fm' (Some id))
       = if Z.of_nat (length (report_times id ops)) >=? fm_retry fm' then Some t else None.
Proof. exact exact_in_window. Qed.

(** C02, refuted direction 1: an ID may be handed out although fewer than maxretry of its
    failures lie in the last findtime seconds (3 failures at 0, 300, 601; findtime 600). *)
Theorem C02_window_sound_refuted : exists times id,
  let ops := map (plain_report id) times in
  let '(fm, _) := fm_run fm_init ops in
  Z.of_nat (recent id (fm_time fm) (last times 0) ops) < fm_retry fm
  /\ exists t, snd (to_ban fm (Some id)) = Some t.
Proof.
  exists [0; 300; 601], "192.0.2.1"%string. vm_compute. split; [reflexivity|]. eexists; reflexivity.
Qed.

(** C02, refuted direction 2: an ID with maxretry failures within the last findtime seconds
    may not be handed out (maxretry 11: one failure at 0, nine at 599, two at 1198). *)
Theorem C02_window_complete_refuted : exists times id,
  let ops := FSetRetry 11 :: map (plain_report id) times in
  let '(fm, _) := fm_run fm_init ops in
  Z.of_nat (recent id (fm_time fm) (last times 0) ops) >= fm_retry fm
  /\ snd (to_ban fm (Some id)) = None /\ snd (to_ban fm None) = None.
Proof.
  exists (0 :: repeat 599 9 ++ [1198; 1198]), "192.0.2.1"%string. vm_compute.
  split; [discriminate|]. split; reflexivity.
Qed.

(** C02, what holds outside the window: the counter is scaled by findtime/elapsed, rounded
    to the nearest integer, and the window start moves; inside it is increased exactly. *)
Theorem C02_estimate : forall fm0 ops0 fm outs0 old tk count obs fm' n,
  fresh_fm fm0 -> Forall sane_op ops0 -> Forall fixed_matches_op ops0 ->
  fm_run fm0 ops0 = (fm, outs0) ->
  dget (t_id tk) (fm_list fm) = Some old ->
  add_failure fm tk false count obs = (fm', n) ->
  exists new, dget (t_id tk) (fm_list fm') = Some new /\ n = t_retry new
    /\ (if (t_time old <? t_time tk) && (t_first old + fm_time fm <? t_time tk)
        then let elapsed := t_time tk - t_first old in
             2 * Z.abs ((t_retry new - count) * elapsed - t_retry old * fm_time fm) <= elapsed
             /\ t_first new = t_time tk - fm_time fm
        else t_retry new = t_retry old + count /\ t_first new = t_first old).
Proof. exact known_update. Qed.

(** C02: further reports that do not advance the clock are always counted in full. *)
Theorem C02_burst_counts : forall fm tk fm' n old,
  dget (t_id tk) (fm_list fm) = Some old -> (fm_maxm fm <> 0%nat -> t_matches old <> None) ->
  t_time tk <= t_time old ->
  add_failure fm tk false 1 false = (fm', n) ->
  exists new, dget (t_id tk) (fm_list fm') = Some new /\ t_retry new = t_retry old + 1
              /\ t_time new = t_time old.
Proof. exact burst_step. Qed.

(** C03: clean-up removes exactly the outdated IDs, keeps the others and their order. *)
Theorem C03_cleanup_exact : forall fm ops fm' outs t,
  fresh_fm fm -> Forall sane_op ops -> fm_run fm ops = (fm', outs) ->
  fm_list (cleanup fm' t)
  = filter (fun kv => negb (t_time (snd kv) <=? t - fm_time fm')) (fm_list fm')
  /\ fm_retry (cleanup fm' t) = fm_retry fm' /\ fm_time (cleanup fm' t) = fm_time fm'
  /\ fm_total (cleanup fm' t) = fm_total fm' /\ fm_maxm (cleanup fm' t) = fm_maxm fm'.
Proof.
  intros fm ops fm' outs t Hf Hs Hr.
  exact (conj (cleanup_list fm' t (proj1 (reachable_wf _ _ _ _ Hf Hs Hr))) (cleanup_other fm' t)).
Qed.

(** C03/C05: while maxMatches is fixed the manager knows an ID iff it was reported and not
    since forgotten, with the time of its latest failure; its lines are all lines of the
    first report, and after further reports exactly the last maxMatches lines reported. *)
Theorem C05_tracked_exactly : forall fm ops fm' outs id,
  fresh_fm fm -> Forall sane_op ops -> Forall fixed_matches_op ops ->
  fm_run fm ops = (fm', outs) ->
  match dget id (fm_list fm'), track id (fm_time fm) (combine ops outs) with
  | None, None => True
  | Some t, Some e =>
      t_time t = e_last e /\
      get_matches t = (if Nat.eqb (e_reports e) 1 then e_lines e
                       else match fm_maxm fm with O => [] | m => last_n m (e_lines e) end)
  | _, _ => False
  end.
Proof. exact tracked_exactly. Qed.

(** C05, what fails if maxMatches may change: after 0 -> n the counter of a known ID is reset. *)
Theorem C05_fixed_setting_needed_refuted : exists ops id,
  let '(fm1, _) := fm_run fm_init ops in
  let '(fm2, _) := fm_run fm1 [FAdd (new_ticket id 2 ["line"%string] 0) 1 false] in
  exists t1 t2, dget id (fm_list fm1) = Some t1 /\ dget id (fm_list fm2) = Some t2
    /\ t_retry t1 = 2 /\ t_retry t2 = 1.
Proof.
  exists [FSetMatches 0; plain_report "192.0.2.1" 1; plain_report "192.0.2.1" 1; FSetMatches 5],
    "192.0.2.1"%string.
  vm_compute. do 2 eexists. repeat split.
Qed.

(** C04: calls that concern other IDs leave an ID untouched. *)
Theorem C04_isolation : forall fm ops fm' outs o id,
  fresh_fm fm -> Forall sane_op ops -> fm_run fm ops = (fm', outs) ->
  match o with
  | FAdd tk _ _ => t_id tk <> id
  | FAddSame i _ _ | FDel i => i <> id
  | FToBan (Some i) => i <> id /\ dmem i (fm_list fm') = true
  | FToBan None | FCleanup _ => False
  | _ => True
  end ->
  dget id (fm_list (fst (fm_step fm' o))) = dget id (fm_list fm').
Proof.
  intros fm ops fm' outs o id Hf Hs Hr Ho.
  apply (isolation fm' o id (reachable_wf _ _ _ _ Hf Hs Hr)).
  destruct o as [tk c b|i c b|t|i|[i|]|n|n|n]; cbn; try contradiction; try reflexivity;
    try (now apply eqb_neq).
  destruct Ho as [N M]. apply eqb_neq in N. now rewrite N, M.
Qed.

(** C04, refuted: asking for an ID that is not tracked may hand out another one. *)
Theorem C04_unknown_id_refuted : exists ops id t,
  let '(fm, _) := fm_run fm_init ops in
  dget id (fm_list fm) = None /\ snd (to_ban fm (Some id)) = Some t /\ t_id t <> id.
Proof.
  exists (repeat (plain_report "192.0.2.1" 5) 3), "192.0.2.2"%string. eexists. vm_compute.
  split; [reflexivity|]. split; [reflexivity|]. discriminate.
Qed.

(** C51: every recorded report adds exactly one to the total; nothing else changes it. *)
Theorem C51_total_counts_recorded_reports : forall fm0 ops fm outs o,
  fresh_fm fm0 -> Forall sane_op ops -> Forall fixed_matches_op ops ->
  fm_run fm0 ops = (fm, outs) ->
  fm_total (fst (fm_step fm o)) = fm_total fm +
    match o with
    | FAdd tk _ obs => if dmem (t_id tk) (fm_list fm) || negb (obs || t_isban tk) then 1 else 0
    | FAddSame i _ _ => if dmem i (fm_list fm) then 1 else 0
    | _ => 0
    end.
Proof.
  intros fm0 ops fm outs o Hf Hs Hx Hr.
  rewrite (total_step fm o (reachable_wf _ _ _ _ Hf Hs Hr) (reachable_keyed _ _ _ _ Hf Hs Hx Hr)).
  destruct o; reflexivity.
Qed.

(** C52: performing bans moves exactly the IDs that reached maxretry to the queue, in the
    order they became known, each once, and keeps all the others. *)
Theorem C52_perform_ban : forall fm ops fm' outs now next q,
  fresh_fm fm -> Forall sane_op ops -> fm_run fm ops = (fm', outs) ->
  now < next ->
  perform_ban fm' None now next q =
  Some (with_list (filter (fun kv => negb (t_retry (snd kv) >=? fm_retry fm')) (fm_list fm')) fm',
        next,
        q ++ map snd (filter (fun kv => t_retry (snd kv) >=? fm_retry fm') (fm_list fm'))).
Proof.
  intros fm ops fm' outs now next q Hf Hs Hr Hn.
  pose proof (reachable_wf _ _ _ _ Hf Hs Hr) as (Hd & _ & _).
  unfold perform_ban. rewrite ban_loop_all by (auto; lia).
  unfold perform_svc. destruct (Z.geb_spec now next); [lia|]. reflexivity.
Qed.

(** When the service time is reached the pass also forgets the IDs whose latest failure is
    older than findtime, and the next service is due five seconds later. *)
Theorem C52_perform_ban_service : forall fm ops fm' outs now next q,
  fresh_fm fm -> Forall sane_op ops -> fm_run fm ops = (fm', outs) ->
  next <= now ->
  perform_ban fm' None now next q =
  Some (with_list (filter (fun kv => negb (t_retry (snd kv) >=? fm_retry fm')
                                     && negb (t_time (snd kv) <=? now - fm_time fm')) (fm_list fm')) fm',
        now + 5,
        q ++ map snd (filter (fun kv => t_retry (snd kv) >=? fm_retry fm') (fm_list fm'))).
Proof.
  intros fm ops fm' outs now next q Hf Hs Hr Hn.
  pose proof (reachable_wf _ _ _ _ Hf Hs Hr) as (Hd & _ & _).
  unfold perform_ban. rewrite ban_loop_all by (auto; lia).
  unfold perform_svc. destruct (Z.geb_spec now next); [|lia].
  f_equal. f_equal. f_equal.
  set (f1 := with_list _ fm').
  pose proof (cleanup_list f1 now) as HL. pose proof (cleanup_other f1 now) as (A & B & C & D).
  destruct (cleanup f1 now) as [cl cr ct ctt cm]. cbn [fm_list fm_retry fm_time fm_total fm_maxm] in *.
  rewrite HL by (apply dwf_filter; exact Hd). subst. unfold f1, with_list. cbn. f_equal.
  rewrite filter_filter_and. reflexivity.
Qed.

(** A pass for one tracked ID queues that ID alone, and only if it reached maxretry. *)
Theorem C52_perform_ban_one : forall fm id t now next q,
  dget id (fm_list fm) = Some t -> now < next ->
  perform_ban fm (Some id) now next q =
  if t_retry t >=? fm_retry fm
  then Some (with_list (ddel id (fm_list fm)) fm, next, q ++ [t])
  else Some (fm, next, q).
Proof.
  intros fm id t now next q Hg Hn. unfold perform_ban. cbn [ban_loop]. unfold to_ban.
  rewrite Hg. cbn [first_bannable]. unfold perform_svc.
  destruct (t_retry t >=? fm_retry fm); destruct (Z.geb_spec now next); try lia; reflexivity.
Qed.

Example C52_demo :
  let fm := fst (fm_run fm_init [FSetRetry 2;
     FAdd (new_ticket "192.0.2.1" 100 [] 2) 1 false; FAdd (new_ticket "192.0.2.2" 110 [] 1) 1 false;
     FAdd (new_ticket "192.0.2.3" 110 [] 3) 1 false]) in
  option_map (fun '(f, n, q) => (dkeys (fm_list f), n, map t_id q)) (perform_ban fm None 120 130 [])
  = Some (["192.0.2.2"], 130, ["192.0.2.1"; "192.0.2.3"])%string
  /\ option_map (fun '(f, n, q) => (dkeys (fm_list f), n, map t_id q)) (perform_ban fm None 800 130 [])
  = Some ([], 805, ["192.0.2.1"; "192.0.2.3"])%string
  /\ option_map (fun '(f, n, q) => (dkeys (fm_list f), n, map t_id q)) (perform_ban fm (Some "192.0.2.3"%string) 120 130 [])
  = Some (["192.0.2.1"; "192.0.2.2"], 130, ["192.0.2.3"])%string.
Proof. vm_compute. repeat split. Qed.

(** ** The hypotheses are met by non-trivial histories *)
Definition demo_ops : list fm_op :=
  [ FAdd (new_ticket "192.0.2.1" 100 ["a"; "b"]%string 0) 1 false;
    FAdd (new_ticket "192.0.2.2" 110 ["x"]%string 2) 1 false;
    FAdd (new_ticket "192.0.2.1" 300 ["c"]%string 0) 1 false;
    FAddSame "192.0.2.2" 1 true;
    FCleanup 650;
    FToBan (Some "192.0.2.2"%string);
    FAdd (new_ticket "192.0.2.1" 700 ["d"; "e"; "f"]%string 0) 1 false ].

Example demo_sane : fresh_fm fm_init /\ Forall sane_op demo_ops /\ Forall fixed_matches_op demo_ops.
Proof.
  split; [split; [reflexivity | cbn; lia]|].
  split; repeat constructor; cbn; try lia; discriminate.
Qed.
Example demo_bans : snd (to_ban (fst (fm_run fm_init demo_ops)) None) <> None.
Proof. vm_compute. discriminate. Qed.
Example demo_track : option_map (fun e => (e_weight e, e_reports e, e_last e))
   (track "192.0.2.1"%string 600 (combine demo_ops (snd (fm_run fm_init demo_ops)))) = Some (3, 3%nat, 700).
Proof. reflexivity. Qed.
Example demo_window : let ops := demo_ops in let id := "192.0.2.1"%string in
  Forall (window_op id 100 600) ops /\ hd_error (report_times id ops) = Some 100
  /\ (forall t, In t (report_times id ops) -> t - 600 <= 100)
  /\ not_handed_out id (snd (fm_run fm_init ops)) /\ length (report_times id ops) = 3%nat.
Proof.
  cbn zeta. split; [|split; [reflexivity|split; [|split; [|reflexivity]]]].
  - unfold demo_ops. repeat constructor; cbn; intros; try discriminate; try lia; eauto 6.
  - cbn. intros t [<-|[<-|[<-|[]]]]; lia.
  - intros t. vm_compute. intros I. repeat (destruct I as [E|I]; [try discriminate; try (injection E as <-; discriminate)|]).
    contradiction.
Qed.
Example demo_burst : exists old, dget "192.0.2.1"%string (fm_list (fst (fm_run fm_init demo_ops))) = Some old
  /\ t_matches old <> None /\ 700 <= t_time old.
Proof. vm_compute. eexists; split; [reflexivity|]. split; discriminate. Qed.

Print Assumptions C01_counter_never_exceeds_reports.
Print Assumptions C01_ban_needs_maxretry_reports.
Print Assumptions C02_exact_in_window.
Print Assumptions C02_window_sound_refuted.
Print Assumptions C02_window_complete_refuted.
Print Assumptions C02_estimate.
Print Assumptions C02_burst_counts.
Print Assumptions C03_cleanup_exact.
Print Assumptions C04_isolation.
Print Assumptions C04_unknown_id_refuted.
Print Assumptions C05_tracked_exactly.
Print Assumptions C05_fixed_setting_needed_refuted.
Print Assumptions C51_total_counts_recorded_reports.
Print Assumptions C52_perform_ban.
Print Assumptions C52_perform_ban_service.
Print Assumptions C52_perform_ban_one.
