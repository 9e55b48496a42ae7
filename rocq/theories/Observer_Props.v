(** Properties C18-C20: ban time increment, observer queue, known offenders. *)
From Coq Require Import QArith Qminmax Lqa.
From Verif Require Import Base Ticket_Model FailManager_Model FailManager_Spec FailManager_Proofs
  Observer_Model Observer_Spec Observer_Proofs.
Open Scope Z_scope.

(** ** C18  The computed ban time *)

(** The formula always uses the latest value of every setting. *)
Theorem C18_latest_settings : forall ops, ops <> [] ->
  let s := latest ops in
  be_ev (fold_left set_extra ops extra_init)
  = Some (mkEv (st_mults s) (st_factor s) (st_formula s) (st_max s) (st_rnd s)).
Proof.
  intros ops N s. apply (settings_latest ops extra_init (mkSet [] 1 None None None)); try reflexivity; auto.
Qed.

(** It never exceeds maxtime, plus the random spread if one is configured. *)
Theorem C18_never_above_maxtime : forall ev time count rnd m,
  ev_max ev = Some m -> is_random rnd ->
  match ev_rnd ev with Some d => (0 <= d)%Q | None => True end ->
  (ev_apply ev time count rnd <= m + match ev_rnd ev with Some d => d | None => 0 end)%Q.
Proof. intros. now apply ev_le_max. Qed.

(** Without multipliers (default or configured formula, any factor) it is never below the
    ban time of the jail, or below maxtime if that is less. *)
Theorem C18_never_below_bantime : forall ev time count rnd,
  ev_mults ev = [] -> is_random rnd ->
  match ev_rnd ev with Some d => (0 <= d)%Q | None => True end ->
  ((match ev_max ev with Some m => Qmin time m | None => time end) <= ev_apply ev time count rnd)%Q.
Proof. intros. now apply ev_ge. Qed.

(** With the default formula it grows with the number of bans ... *)
Theorem C18_monotone : forall ev time a b rnd,
  ev_mults ev = [] -> ev_formula ev = None -> (0 <= ev_factor ev)%Q -> (0 <= time)%Q -> 0 <= a <= b ->
  (ev_apply ev time a rnd <= ev_apply ev time b rnd)%Q.
Proof. intros. now apply ev_mono. Qed.

(** ... and is bantime * 2^count * factor, with at most 20 doublings, cut at maxtime. *)
Theorem C18_exact : forall ev time count rnd,
  ev_mults ev = [] -> ev_formula ev = None -> ev_rnd ev = None -> (1 <= ev_factor ev)%Q -> (0 <= time)%Q -> 0 <= count ->
  (ev_apply ev time count rnd ==
   let d := time * inject_Z (2 ^ Z.min count 20) * ev_factor ev in
   match ev_max ev with Some m => Qmin d m | None => d end)%Q.
Proof. intros. now apply ev_exact. Qed.

(** With multipliers it is bantime * factor * multiplier, where counts beyond the list use
    the last multiplier; then cut at maxtime, then spread. *)
Theorem C18_multipliers : forall ev time count rnd,
  ev_mults ev <> [] -> 0 <= count ->
  let m := nth (Z.to_nat (Z.min count (Z.of_nat (length (ev_mults ev)) - 1))) (ev_mults ev) 0%Q in
  let d := (time * ev_factor ev * m)%Q in
  let c := match ev_max ev with Some x => Qmin d x | None => d end in
  ev_apply ev time count rnd = match ev_rnd ev with Some r => (c + rnd * r)%Q | None => c end.
Proof.
  intros ev time count rnd N H. cbn zeta. unfold ev_apply. rewrite <- pick_index by auto.
  destruct (ev_mults ev); [congruence|reflexivity].
Qed.

Definition evD := mkEv [] 1 None (Some 100000%Q) (Some 60%Q).
Example C18_demo :
  (ev_apply evD 600 3 (1#2) == 4830)%Q /\ (ev_apply evD 600 30 (1#2) == 100030)%Q
  /\ (ev_apply (mkEv [1; 5; 30; 60] 2 None None None)%Q 600 3 0 == 72000)%Q
  /\ (ev_apply (mkEv [1; 5; 30; 60] 2 None None None)%Q 600 9 0 == 72000)%Q.
Proof. vm_compute. repeat split. Qed.

(** What the observer does with a new ban of ID [t] for [btime] seconds: with the increment
    on and a row of an earlier ban in the database, the ban time becomes the computed one;
    otherwise it stays. *)
Theorem C18_ban_found : forall j t btime now rnd bc tob lbt more rows,
  oj_alive j = true -> be_increment (oj_extra j) = true -> oj_rows j = Some rows ->
  rows (ot_id t) = (bc, tob, lbt) :: more -> 0 < bc ->
  ot_restored t = false -> ot_bantime t = None -> (0 < btime)%Q -> tob < ot_time t ->
  forall ev, be_ev (oj_extra j) = Some ev ->
  let new := ev_apply ev btime bc rnd in
  (0 <= new)%Q ->
  let '(t', eff) := ban_found j t btime now rnd in
  ot_bantime t' = Some new /\ ot_count t' = Z.max (bc + 1) (ot_count t) /\ ot_id t' = ot_id t
  /\ ot_time t' = ot_time t /\ ot_restored t' = false
  /\ eff = (if Qle_bool (inject_Z now) (inject_Z (ot_time t) + new)
            then (if Qeq_bool new btime then [] else [BTimer (Qmin 10 (Qmax 0 (new - btime - 5)))]) ++ [BStore t']
            else []).
Proof.
  intros j t btime now rnd bc tob lbt more rows A I R Rr Hbc Hr Hb Hp Ht ev Ev new Hn.
  unfold ban_found. rewrite Hr, Hb.
  assert (E1 : Qeq_bool btime (-1) = false) by (apply not_true_iff_false; intros X; apply Qeq_bool_eq in X; lra).
  rewrite E1. cbn [negb andb]. unfold incr_ban_time. rewrite A, R. cbn [negb].
  assert (E2 : Qle_bool btime 0 = false) by (apply not_true_iff_false; intros X; apply Qle_bool_iff in X; lra).
  rewrite E2, I, Rr. cbn [negb andb]. replace (bc >? 0) with true by (symmetry; apply Z.gtb_lt; lia). rewrite Ev.
  fold new. set (t1 := if bc >=? ot_count t then set_count (bc + 1) t else t).
  assert (C1 : ot_count t1 = Z.max (bc + 1) (ot_count t) /\ ot_id t1 = ot_id t /\ ot_time t1 = ot_time t /\ ot_restored t1 = false).
  { unfold t1, set_count. destruct (Z.geb_spec bc (ot_count t)).
    - replace (bc + 1 >? ot_count t) with true by (symmetry; apply Z.gtb_lt; lia). cbn. repeat split; auto. lia.
    - repeat split; auto. lia. }
  destruct C1 as (C1 & C2 & C3 & C4).
  change (ot_time (ot_with_bantime (Some new) t1)) with (ot_time t1). rewrite C3.
  replace (ot_time t >? tob) with true by (symmetry; apply Z.gtb_lt; lia).
  assert (E3 : Qeq_bool new (-1) = false) by (apply not_true_iff_false; intros X; apply Qeq_bool_eq in X; lra).
  rewrite E3. cbn [negb andb orb].
  assert (E4 : (if negb (Qle_bool new btime) then ot_with_bantime (Some new) (ot_with_bantime (Some new) t1) else ot_with_bantime (Some new) t1) = ot_with_bantime (Some new) t1) by (destruct (negb _); reflexivity).
  rewrite E4. change (ot_time (ot_with_bantime (Some new) t1)) with (ot_time t1). rewrite C3.
  change (ot_restored (ot_with_bantime (Some new) t1)) with (ot_restored t1). rewrite C4.
  destruct (Qle_bool (inject_Z now) (inject_Z (ot_time t) + new)); cbn [negb]; cbn; repeat (split; [auto|]);
    try (destruct (Qeq_bool new btime); reflexivity); auto.
Qed.

(** A permanent ban, a ban with a time of its own, an unknown ID, a jail without increment
    or without database: the ban time is not touched, and nothing is prolonged. *)
Theorem C18_unchanged_otherwise : forall j t btime now rnd t' eff,
  ((btime == -1)%Q \/ ot_bantime t <> None \/ be_increment (oj_extra j) = false
   \/ oj_alive j = false \/ (forall rows, oj_rows j = Some rows -> rows (ot_id t) = [])) ->
  ban_found j t btime now rnd = (t', eff) ->
  t' = t /\ (eff = [] \/ eff = [BStore t]).
Proof.
  intros j t btime now rnd t' eff H E. unfold ban_found in E.
  destruct (ot_restored t) eqn:Hr; [injection E as <- <-; auto|].
  assert (D : (if negb (Qeq_bool btime (-1)) && match ot_bantime t with None => true | Some _ => false end then
        let '(btime1, t1) := incr_ban_time j btime t rnd in
        (btime1, if Qeq_bool btime1 (-1) || negb (Qle_bool btime1 btime)
                then ot_with_bantime (Some btime1) t1 else t1)
      else (btime, t)) = (btime, t)).
  { destruct (Qeq_bool btime (-1)) eqn:E1; [reflexivity|]. cbn [negb andb].
    destruct (ot_bantime t) eqn:Eb; [reflexivity|].
    assert (I : incr_ban_time j btime t rnd = (btime, t)).
    { unfold incr_ban_time. destruct (oj_alive j) eqn:Al; [|reflexivity]. cbn [negb].
      destruct (oj_rows j) as [rows|] eqn:Er; [|reflexivity].
      destruct (be_increment (oj_extra j)) eqn:Ei; [|now rewrite andb_false_r].
      destruct H as [H|[H|[H|[H|H]]]]; try congruence.
      - apply Qeq_bool_iff in H. congruence.
      - rewrite (H rows eq_refl). destruct (negb (Qle_bool btime 0) && true); reflexivity. }
    rewrite I, E1.
    assert (L : Qle_bool btime btime = true) by (apply Qle_bool_iff; lra). rewrite L. reflexivity. }
  rewrite D in E. destruct (_ && _) in E; [injection E as <- <-; auto|].
  assert (L : Qeq_bool btime btime = true) by (apply Qeq_bool_iff; reflexivity). rewrite L, Hr in E. cbn [negb app] in E.
  destruct (oj_rows j); injection E as <- <-; auto.
Qed.

(** An increment never shortens a ban as long as there are no multipliers and maxtime is not
    below the ban time of the jail. *)
Theorem C18_never_shortened : forall j t btime now rnd t' eff ops,
  configured (oj_extra j) ops -> ops <> [] ->
  st_mults (latest ops) = [] ->
  match st_max (latest ops) with Some m => (btime <= m)%Q | None => True end ->
  match st_rnd (latest ops) with Some d => (0 <= d)%Q | None => True end ->
  is_random rnd -> (0 < btime)%Q -> ot_bantime t = None ->
  ban_found j t btime now rnd = (t', eff) ->
  ot_time t' = ot_time t
  /\ lasts (ot_time t') (match ot_bantime t' with Some b => b | None => btime end) (inject_Z (ot_time t) + btime).
Proof.
  intros j t btime now rnd t' eff ops HC HN HM Hmax Hrnd R Hp Hb E.
  assert (EV := C18_latest_settings ops HN). cbn zeta in EV. rewrite <- HC in EV.
  set (ev := mkEv _ _ _ _ _) in EV.
  assert (G : forall c, (btime <= ev_apply ev btime c rnd)%Q).
  { intros c. pose proof (ev_ge ev btime c rnd HM R Hrnd) as X. unfold ev in X at 1. cbn [ev_max] in X.
    destruct (st_max (latest ops)) as [m|]; [|exact X]. pose proof (Q.min_l btime m Hmax). lra. }
  unfold ban_found in E. destruct (ot_restored t).
  { injection E as <- <-. rewrite Hb. split; [reflexivity|]. right. lra. }
  rewrite Hb in E.
  assert (E1 : Qeq_bool btime (-1) = false) by (apply not_true_iff_false; intros X; apply Qeq_bool_eq in X; lra).
  rewrite E1 in E. cbn [negb andb] in E.
  destruct (incr_ban_time j btime t rnd) as [b1 t1] eqn:EI.
  assert (P : (btime <= b1)%Q /\ ot_time t1 = ot_time t /\ (ot_bantime t1 = None \/ ot_bantime t1 = Some b1)).
  { unfold incr_ban_time in EI. destruct (negb (oj_alive j)); [injection EI as <- <-; repeat split; [lra|auto]|].
    destruct (oj_rows j) as [rows|]; [|injection EI as <- <-; repeat split; [lra|auto]].
    destruct (_ && _); [|injection EI as <- <-; repeat split; [lra|auto]].
    destruct (rows (ot_id t)) as [|[[bc tob] lbt] more]; [injection EI as <- <-; repeat split; [lra|auto]|].
    assert (T2 : ot_time (if bc >=? ot_count t then set_count (bc + 1) t else t) = ot_time t).
    { unfold set_count. destruct (bc >=? ot_count t); [|reflexivity]. destruct (bc + 1 >? ot_count t); reflexivity. }
    destruct (bc >? 0).
    - rewrite EV in EI. injection EI as <- <-. split; [apply G|].
      match goal with |- context [if ?b then _ else ot_with_restored _ _] => destruct b end; cbn [ot_time ot_with_restored ot_with_bantime ot_bantime]; auto.
    - injection EI as <- <-. split; [lra|].
      match goal with |- context [if ?b then _ else ot_with_restored _ _] => destruct b end; cbn [ot_time ot_with_restored ot_with_bantime ot_bantime]; auto. }
  destruct P as (P1 & P2 & P3).
  set (t2 := if Qeq_bool b1 (-1) || negb (Qle_bool b1 btime) then ot_with_bantime (Some b1) t1 else t1) in E.
  assert (X : ot_time t2 = ot_time t /\ (ot_bantime t2 = None \/ ot_bantime t2 = Some b1)).
  { unfold t2. destruct (_ || _); cbn; auto. }
  destruct X as [X1 X2].
  assert (T' : t' = t2) by (destruct (_ && _) in E; now injection E). subst t'.
  split; [exact X1|]. right. rewrite X1. destruct X2 as [-> | ->]; lra.
Qed.

Definition settings1 := [EIncrement true; EFactor (Some 1%Q); EMax (Some 604800%Q)].
Definition jailX := mkOJ true (fold_left set_extra settings1 extra_init)
                         (Some (fun id => if eqb id "192.0.2.1"%string then [(2, 900, 600%Q)] else [])).
Example C18_demo2 :
  let '(t', eff) := ban_found jailX (mkOT "192.0.2.1"%string 1000 None 1 false) 600 1001 0 in
  t' = mkOT "192.0.2.1"%string 1000 (Some 2400%Q) 3 false /\ length eff = 2%nat.
Proof. vm_compute. split; reflexivity. Qed.

(** Otherwise it may: with maxtime 300 and a ban time of 600, the second ban of an ID, made
    for 600 seconds, is cut down to 300. *)
Theorem C18_shortened_refuted : exists j t btime now,
  ot_bantime t = None /\ (btime == 600)%Q
  /\ ot_bantime (fst (ban_found j t btime now 0)) = Some 300%Q.
Proof.
  exists (mkOJ true (fold_left set_extra [EIncrement true; EMax (Some 300%Q)] extra_init) (Some (fun _ => [(1, 900, 600%Q)]))),
    (mkOT "192.0.2.1"%string 1000 None 1 false), 600%Q, 1001. vm_compute. repeat split.
Qed.

(** ** C19  Events are executed first in first out, each at most once, whatever the handlers
    do; as long as the observer runs, what entered is what was executed followed by what
    waits. *)
Theorem C19_fifo : forall h ops,
  let o := ob_run h obs_init ops in
  ob_gone o = false -> entered_run h obs_init ops = map fst (ob_done o) ++ ob_queue o.
Proof. intros h ops o G. exact (fifo_run h ops obs_init G). Qed.

(** A raising handler does not keep the next event from being executed: any [n] waiting
    events are executed by the next [n] steps of the observer. *)
Theorem C19_no_event_blocks : forall h ops n,
  let o := ob_run h obs_init ops in
  ob_gone o = false -> ob_paused o = false -> (n <= length (ob_queue o))%nat ->
  let o' := ob_run h o (repeat BTake n) in
  map fst (ob_done o') = map fst (ob_done o) ++ firstn n (ob_queue o).
Proof.
  intros h ops n o G P L o'. destruct (drain h n o G P L) as (rs & D & Lr & _). unfold o'. rewrite D, map_app. f_equal.
  clear -Lr L. assert (E : length rs = length (firstn n (ob_queue o))) by (rewrite firstn_length; lia).
  clear Lr L. revert rs E. generalize (firstn n (ob_queue o)) as l. induction l as [|x l IH]; intros [|r rs] E; cbn in *; try lia; [reflexivity|].
  f_equal. apply IH. lia.
Qed.

(** A stop that found the queue empty loses nothing that entered before. *)
Theorem C19_stop_complete : forall h ops1 ops2,
  ob_gone (ob_run h obs_init ops1) = false -> ob_queue (ob_run h obs_init ops1) = [] ->
  exists later, map fst (ob_done (ob_run h obs_init (ops1 ++ ops2))) = entered_run h obs_init ops1 ++ later.
Proof.
  intros h ops1 ops2 G Q. pose proof (C19_fifo h ops1 G) as F. cbn zeta in F. rewrite Q, app_nil_r in F.
  rewrite run_app. destruct (done_run h ops2 (ob_run h obs_init ops1)) as [l ->]. rewrite map_app, <- F. eauto.
Qed.

(** A stop that is not forced: once the thread has ended, everything that was waiting when the stop
    was requested, and the request itself, has been executed. *)
Theorem C19_unforced_stop : forall h before shutdown after,
  let o := ob_run h obs_init before in
  ob_gone o = false -> ob_active o = true -> ob_notify o = true -> unforced after ->
  let o' := ob_run h obs_init (before ++ BStopReq shutdown :: after) in
  ob_gone o' = true ->
  exists later, map fst (ob_done o') = (entered_run h obs_init before ++ [shutdown]) ++ later.
Proof.
  intros h before sh after o G A N U o' G'. unfold o'. unfold o' in G'. rewrite run_app in *. fold o in G' |- *.
  change (BStopReq sh :: after) with ([BStopReq sh] ++ after) in *. rewrite run_app in *.
  pose proof (C19_fifo h before G) as F. cbn zeta in F. fold o in F.
  refine (proj2 (kept_run h (entered_run h obs_init before ++ [sh]) after U (ob_run h o [BStopReq sh]) _) (or_introl G')).
  unfold ob_run. cbn [fold_left ob_step]. rewrite A, N. cbn. split; cbn.
  - intros _. exists []. rewrite F, app_nil_r. now rewrite app_assoc.
  - rewrite G. intros [X|X]; discriminate.
Qed.

(** A forced stop may drop waiting events. *)
Theorem C19_forced_stop_refuted : exists h ops ev,
  In ev (entered_run h obs_init ops)
  /\ forall ops2, ~ In ev (entered_run h (ob_run h obs_init ops) ops2) -> ~ In ev (map fst (ob_done (ob_run h obs_init (ops ++ ops2)))).
Proof.
  exists (fun _ _ => (false, [])), [BAdd 7; BPause true; BStopReq 1; BStopEnd true; BLeave], 7%nat. split; [cbn; auto|].
  intros ops2 _. rewrite run_app. set (o := ob_run _ obs_init _).
  assert (G : ob_gone o = true /\ ob_done o = []) by (split; reflexivity). revert G. generalize o. clear o.
  induction ops2 as [|op ops2 IH]; intros o [G D]; [cbn; rewrite D; intros []|].
  unfold ob_run in *. cbn [fold_left]. apply IH. split; [now apply gone_stays|].
  destruct op; cbn; auto.
  - now rewrite G.
  - destruct (_ && _); auto.
  - destruct (negb _); auto. destruct (_ || _); auto.
  - destruct (_ || _); auto.
Qed.

Example C19_demo :
  let h := fun _ ev => (Nat.eqb ev 2, if Nat.eqb ev 1 then [9%nat] else []) in
  let o := ob_run h obs_init [BAdd 1; BAdd 2; BTake; BAdd 3; BTake; BTake; BTake] in
  ob_done o = [(1, false); (2, true); (9, false); (3, false)]%nat /\ ob_gone o = false /\ ob_paused o = false.
Proof. vm_compute. repeat split. Qed.

Example C19_stop_demo :
  let h := fun _ _ => (false, []) in
  let before := [BAdd 1; BAdd 2; BTake]%nat in
  let after := [BTake; BTake; BStopEnd false; BLeave]%nat in
  unforced after /\ ob_active (ob_run h obs_init before) = true /\
  ob_gone (ob_run h obs_init (before ++ BStopReq 5 :: after)) = true /\
  map fst (ob_done (ob_run h obs_init (before ++ BStopReq 5 :: after))) = [1; 2; 5]%nat.
Proof. split; [repeat constructor; discriminate|]. vm_compute. repeat split. Qed.

(** ** C20  Known offenders *)

(** Nothing happens for a jail that is stopped or has no increment, for an ID without an
    earlier ban, and for a failure not later than the last ban. *)
Theorem C20_only_known_offenders : forall alive increment rows tk same fm now next queue,
  alive = false \/ increment = false \/ rows = None \/ rows = Some []
  \/ (exists bc tob more, rows = Some ((bc, tob) :: more) /\ t_time tk <= tob) ->
  failure_found alive increment rows tk same fm now next queue = Some (fm, tk, next, queue).
Proof.
  intros alive increment rows tk same fm now next queue H. unfold failure_found.
  destruct (negb alive || negb increment) eqn:E; [reflexivity|].
  apply orb_false_iff in E as [E1 E2]. apply negb_false_iff in E1, E2.
  destruct H as [H|[H|[H|[H|(bc & tob & more & H & L)]]]]; try congruence; subst rows.
  - reflexivity.
  - replace (Z.min 1 (fm_retry fm) <=? 1) with true by (symmetry; apply Z.leb_le; lia). reflexivity.
  - replace (t_time tk <=? tob) with true by (symmetry; apply Z.leb_le; lia). reflexivity.
Qed.

(** For a failure after the last of [bc] bans the weight added is 2^(bc-1) (at most 2^19),
    but never more than maxretry - 1; it grows with the number of bans. *)
Theorem C20_weight : forall bc maxretry, 1 <= bc -> 1 <= maxretry ->
  0 <= weight bc maxretry < maxretry
  /\ forall bc', bc <= bc' -> weight bc maxretry <= weight bc' maxretry.
Proof.
  intros bc m H1 H2. rewrite <- weight_eq by lia. split.
  - pose proof (extra_retry_bounds bc ltac:(lia)). lia.
  - intros bc' L. rewrite <- weight_eq by lia. pose proof (extra_retry_mono bc bc' ltac:(lia)). lia.
Qed.

(** Such a failure of an ID the failure manager knows raises its counter by exactly that
    weight (if the window has not moved), and queues it for a ban iff the counter then
    reaches maxretry; other IDs are not touched. *)
Theorem C20_counter : forall fm0 ops0 fm outs0 bc tob more tk old now next queue,
  fresh_fm fm0 -> Forall sane_op ops0 -> Forall fixed_matches_op ops0 -> fm_run fm0 ops0 = (fm, outs0) ->
  1 <= bc -> t_bancount tk <= bc -> tob < t_time tk -> 2 <= fm_retry fm -> now < next ->
  dget (t_id tk) (fm_list fm) = Some old ->
  (t_time old <? t_time tk) && (t_first old + fm_time fm <? t_time tk) = false ->
  exists fm' tk' queue', failure_found true true (Some ((bc, tob) :: more)) tk false fm now next queue
      = Some (fm', tk', next, queue')
  /\ t_bancount tk' = bc
  /\ let counter := t_retry old + weight bc (fm_retry fm) in
     (if counter >=? fm_retry fm
      then dget (t_id tk) (fm_list fm') = None
           /\ exists new, queue' = queue ++ [new] /\ t_retry new = counter
                /\ (forall i, i <> t_id tk -> dget i (fm_list fm') = dget i (fm_list fm))
      else queue' = queue /\ exists new, dget (t_id tk) (fm_list fm') = Some new /\ t_retry new = counter)
  /\ (forall i, i <> t_id tk -> dget i (fm_list fm') = dget i (fm_list fm)).
Proof.
  intros fm0 ops0 fm outs0 bc tob more tk old now next queue Hf Hs Hx Hr Hbc Hct Htob Hm Hn G W.
  unfold failure_found. cbn [negb orb].
  rewrite Z.max_l by lia. replace (t_time tk <=? tob) with false by (symmetry; apply Z.leb_gt; lia).
  assert (Hw : 2 <= extra_retry bc).
  { pose proof (extra_retry_mono 1 bc ltac:(lia)) as X. change (extra_retry 1) with 2 in X. exact X. }
  replace (Z.min (extra_retry bc) (fm_retry fm) <=? 1) with false by (symmetry; apply Z.leb_gt; lia).
  rewrite weight_eq by lia.
  destruct (add_failure fm tk false (weight bc (fm_retry fm)) true) as [fm1 n] eqn:EA.
  destruct (known_update _ _ _ _ _ _ _ _ _ _ Hf Hs Hx Hr G EA) as (new & G1 & Hnn & U). rewrite W in U. destruct U as [U1 U2].
  set (tk1 := if bc >? t_bancount tk then with_bancount bc tk else tk).
  assert (Htk : t_bancount tk1 = bc /\ t_id tk1 = t_id tk).
  { unfold tk1. destruct (Z.gtb_spec bc (t_bancount tk)); cbn; split; auto; lia. }
  destruct Htk as [Hb Hid].
  pose proof (reachable_wf _ _ _ _ Hf Hs Hr) as WF.
  assert (R1 : fm_retry fm1 = fm_retry fm).
  { pose proof EA as X. unfold add_failure, add_known in X. rewrite G in X. destruct (inc _ _ _ _) as [f [|]] in X;
    destruct (true || t_isban tk) in X; injection X as <- _; reflexivity. }
  assert (O1 : forall i, i <> t_id tk -> dget i (fm_list fm1) = dget i (fm_list fm)).
  { intros i Ni. pose proof (isolation fm (FAdd tk (weight bc (fm_retry fm)) true) i WF) as X. cbn [fm_step] in X. rewrite EA in X.
    cbn [fst] in X. apply X. cbn. apply eqb_neq. congruence. }
  rewrite Hnn, U1. cbn zeta.
  destruct (t_retry old + weight bc (fm_retry fm) >=? fm_retry fm) eqn:EG.
  - rewrite Hid. unfold perform_ban. cbn [ban_loop]. unfold to_ban. rewrite G1. cbn [first_bannable].
    rewrite R1, U1, EG. unfold perform_svc. destruct (Z.geb_spec now next); [lia|].
    eexists _, tk1, _. split; [reflexivity|]. split; [exact Hb|]. cbn [fm_list with_list].
    assert (WF1 : dwf (fm_list fm1)).
    { pose proof EA as X. unfold add_failure, add_known in X. rewrite G in X.
      destruct (inc _ _ _ _) as [f [|]] in X; destruct (true || t_isban tk) in X; injection X as <- _; cbn; repeat apply dwf_dset; apply WF. }
    split; [|intros i Ni; rewrite dget_ddel_other by auto; now apply O1].
    split; [now apply dget_ddel_same|]. exists new. split; [reflexivity|]. split; [exact U1|].
    intros i Ni. rewrite dget_ddel_other by auto. now apply O1.
  - eexists fm1, tk1, queue. split; [reflexivity|]. split; [exact Hb|]. split; [|exact O1]. split; [reflexivity|]. eauto.
Qed.

Example C20_demo :
  let fm := fst (fm_run fm_init [FSetRetry 5; FAdd (new_ticket "192.0.2.1"%string 1000 [] 0) 1 false; FAdd (new_ticket "192.0.2.9"%string 1000 [] 0) 1 false]) in
  option_map (fun '(f, t, n, q) => (dkeys (fm_list f), t_bancount t, map t_retry q))
     (failure_found true true (Some [(3, 500)]) (new_ticket "192.0.2.1"%string 1001 [] 0) false fm 1001 1005 [])
  = Some (["192.0.2.9"%string], 3, [5])
  /\ option_map (fun '(f, t, n, q) => (map (fun kv => (fst kv, t_retry (snd kv))) (fm_list f), q))
     (failure_found true true (Some [(1, 500)]) (new_ticket "192.0.2.1"%string 1001 [] 0) false fm 1001 1005 [])
  = Some ([("192.0.2.1"%string, 2); ("192.0.2.9"%string, 1)], []).
Proof. vm_compute. split; reflexivity. Qed.

Print Assumptions C18_latest_settings.
Print Assumptions C18_never_above_maxtime.
Print Assumptions C18_never_below_bantime.
Print Assumptions C18_monotone.
Print Assumptions C18_exact.
Print Assumptions C18_multipliers.
Print Assumptions C18_ban_found.
Print Assumptions C18_unchanged_otherwise.
Print Assumptions C18_never_shortened.
Print Assumptions C18_shortened_refuted.
Print Assumptions C19_fifo.
Print Assumptions C19_no_event_blocks.
Print Assumptions C19_stop_complete.
Print Assumptions C19_unforced_stop.
Print Assumptions C19_stop_demo.
Print Assumptions C19_forced_stop_refuted.
Print Assumptions C20_only_known_offenders.
Print Assumptions C20_weight.
Print Assumptions C20_counter.
