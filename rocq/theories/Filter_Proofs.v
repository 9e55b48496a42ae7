(** Proofs about the filter. *)
From Verif Require Import Base Text IPAddr_Model Utils_Model Lines_Model Lines_Spec Session_Model Ignore_Model Ignore_Spec Ignore_Proofs Ignore_Props
  Ticket_Model FailManager_Model FailManager_Proofs Filter_Model Filter_Spec.
Require Import ZifyBool ZifyNat.

(** ** reports and bans *)
(** [f'] comes from [f] by calls of the failure manager that report [rs]. *)
Definition refines (f f' : flt) (rs : list (string * Z * Z)) : Prop :=
  exists fops outs, fm_run (l_fm f) fops = (l_fm f', outs) /\ calls_reported fops = rs /\ l_queue f' = l_queue f ++ handed outs /\ Forall filter_call fops /\ (forall n, ~ In (FSetRetry n) fops).
Lemma refines_same f f' : l_fm f' = l_fm f -> l_queue f' = l_queue f -> refines f f' [].
Proof. intros E1 E2. exists [], []. cbn. rewrite E1, E2, app_nil_r. repeat split; auto. Qed.
Lemma refines_trans f f1 f' rs1 rs2 : refines f f1 rs1 -> refines f1 f' rs2 -> refines f f' (rs1 ++ rs2).
Proof.
  intros (a & oa & Ra & Ca & Qa & Fa & Na) (b & ob & Rb & Cb & Qb & Fb & Nb). exists (a ++ b), (oa ++ ob). rewrite fm_run_app, Ra, Rb. split; [reflexivity|].
  rewrite calls_app, handed_app, Ca, Cb, Qb, Qa, app_assoc. split; [reflexivity|]. split; [reflexivity|]. split; [now apply Forall_app|].
  intros n I. apply in_app_or in I as [I|I]; [now apply Na in I|now apply Nb in I].
Qed.
Lemma svc_refines fm now nx : exists fops, fst (perform_svc fm now nx) = fst (fm_run fm fops) /\ handed (snd (fm_run fm fops)) = [] /\ calls_reported fops = [] /\ Forall filter_call fops /\ (forall n, ~ In (FSetRetry n) fops).
Proof.
  unfold perform_svc. destruct (now >=? nx).
  - exists [FCleanup now]. cbn. repeat split; auto; [repeat constructor|]. intros n [H|[]]. discriminate.
  - exists []. cbn. repeat split; auto.
Qed.
(** a report followed by the ban of the ID, if it reached the limit *)
Lemma report_refines f tk count id now :
  t_retry tk = 0 -> t_failures tk = 0 -> t_isban tk = false -> 0 <= count ->
  let '(fm, n) := add_failure (l_fm f) tk false count false in
  refines f (let f1 := with_fm fm (l_svc f) (l_queue f) f in
             if n >=? fm_retry fm then match perform_ban fm (Some id) now (l_svc f) (l_queue f) with Some (fm, nx, q) => with_fm fm nx q f1 | None => f1 end else f1)
    [(t_id tk, t_time tk, count)].
Proof.
  intros H1 H2 H3 H4. destruct (add_failure (l_fm f) tk false count false) as [fm n] eqn:Ea. cbn zeta.
  assert (A : refines f (with_fm fm (l_svc f) (l_queue f) f) [(t_id tk, t_time tk, count)]).
  { exists [FAdd tk count false], [OCount n]. cbn [fm_run fm_step]. rewrite Ea. cbn. rewrite app_nil_r. repeat split; auto; [constructor; [cbn; auto|constructor]|]. intros m [H|[]]. discriminate. }
  destruct (n >=? fm_retry fm); [|exact A]. unfold perform_ban. cbn [ban_loop]. destruct (to_ban fm (Some id)) as [fm2 r] eqn:Et.
  set (q2 := match r with Some t => l_queue f ++ [t] | None => l_queue f end).
  destruct (svc_refines fm2 now (l_svc f)) as (so & S1 & S2 & S3 & S4 & S5). destruct (perform_svc fm2 now (l_svc f)) as [fm3 nx] eqn:Es. cbn [fst] in S1.
  assert (B : forall f', l_fm f' = fm3 -> l_queue f' = q2 -> refines f f' [(t_id tk, t_time tk, count)]).
  { intros f' E1 E2. rewrite <- (app_nil_r [_]). eapply refines_trans; [exact A|]. destruct (fm_run fm2 so) as [fm3' outs] eqn:Er. cbn [fst snd] in *. subst fm3'.
    exists (FToBan (Some id) :: so), (OTicket r :: outs). cbn [fm_run fm_step with_fm l_fm l_queue]. rewrite Et, Er, E1, E2. split; [reflexivity|]. split; [exact S3|].
    split. { unfold q2. destruct r as [t|]; cbn [handed]; now rewrite S2, ?app_nil_r. }
    split; [constructor; [exact I|exact S4]|]. intros m [H|H]; [discriminate|now apply S5 in H]. }
  destruct r as [t|]; rewrite Es; apply B; reflexivity.
Qed.

Lemma count_refines w t l : forall f f' evs ok, count_all w f t l = (f', evs, ok) -> refines f f' (map (fun e => (id_of (fst e), snd e, 1)) evs).
Proof.
  induction l as [|[ip fl] l IH]; cbn [count_all]; intros f f' evs ok E; [injection E as <- <- <-; now apply refines_same|].
  set (t' := if t >? fw_now w then fw_now w else t) in *. destruct (in_ignore _ _ _) as [ig ans]. destruct ans as [[]|].
  - apply IH in E. rewrite <- (app_nil_l (map _ _)). eapply refines_trans; [|exact E]. now apply refines_same.
  - pose proof (report_refines (with_ign ig f) (ticket_of ip t' fl) 1 (key (ntoa ip)) (fw_now w) eq_refl eq_refl eq_refl ltac:(lia)) as R.
    destruct (add_failure (l_fm (with_ign ig f)) (ticket_of ip t' fl) false 1 false) as [fm n]. cbn zeta in R.
    destruct (count_all w _ t l) as [[f2 evs2] ok2] eqn:E2. injection E as <- <- <-. apply IH in E2. cbn [map fst snd].
    eapply (refines_trans _ _ _ [_]); [|exact E2]. rewrite <- (app_nil_l [_]). eapply refines_trans; [|exact R]. now apply refines_same.
  - injection E as <- <- <-. now apply refines_same.
Qed.
Lemma process_same cfg w f i : let '(f', _, _) := process_line cfg w f i in l_fm f' = l_fm f /\ l_queue f' = l_queue f /\ l_ign f' = l_ign f /\ l_svc f' = l_svc f /\ l_lines f' = l_lines f /\ l_errors f' = l_errors f /\ l_idle f' = l_idle f.
Proof.
  unfold process_line. destruct (line_date _ _ _ _ _) as [[[lt ld] l] [d|]].
  - destruct (sane_date _ _ _ _); [|auto 10]. destruct (find_failure _ _ _ _ _ _) as [[lb s] o]. auto 10.
  - destruct (find_failure _ _ _ _ _ _) as [[lb s] o]. auto 10.
Qed.
Lemma line_refines cfg w f i f' evs : line_step cfg w f i = (f', evs) -> refines f f' (map (fun e => (id_of (fst e), snd e, 1)) evs).
Proof.
  unfold line_step. pose proof (process_same cfg w f i) as P. destruct (process_line cfg w f i) as [[f1 o] t]. destruct P as (P1 & P2 & _).
  assert (CE : forall f0, l_fm (common_error f0) = l_fm f0 /\ l_queue (common_error f0) = l_queue f0) by (intros f0; unfold common_error; destruct (_ >=? _); auto).
  destruct o as [l|].
  - destruct (count_all w f1 t l) as [[f2 evs2] ok] eqn:E. apply count_refines in E. destruct ok; cbn [negb]; intros H.
    + injection H as <- <-. rewrite <- (app_nil_l (map _ _)). eapply refines_trans; [apply refines_same; eauto|]. rewrite <- (app_nil_r (map _ _)). eapply refines_trans; [exact E|].
      destruct (_ =? 0); [|now apply refines_same]. cbn [with_count l_fm l_svc]. destruct (svc_refines (l_fm f2) (fw_now w) (l_svc f2)) as (so & S1 & S2 & S3 & S4 & S5).
      destruct (perform_svc (l_fm f2) (fw_now w) (l_svc f2)) as [fm nx]. cbn [fst] in S1. destruct (fm_run (l_fm f2) so) as [fm' outs] eqn:Er. cbn [fst snd] in *. subst fm'.
      exists so, outs. cbn. rewrite S2, app_nil_r. auto.
    + injection H as <- <-. rewrite <- (app_nil_l (map _ _)). eapply refines_trans; [apply refines_same; eauto|]. rewrite <- (app_nil_r (map _ _)). eapply refines_trans; [exact E|]. apply refines_same; apply CE.
  - intros H. injection H as <- <-. apply refines_same; rewrite ?(proj1 (CE f1)), ?(proj2 (CE f1)); auto.
Qed.

(** the whole history *)
Definition refines_all (ops : list flt_op) (f f' : flt) (rs : list (string * Z * Z)) : Prop :=
  exists fops outs, fm_run (l_fm f) fops = (l_fm f', outs) /\ calls_reported fops = rs /\ l_queue f' = l_queue f ++ handed outs /\ Forall filter_call fops /\ (forall n, In (FSetRetry n) fops <-> In (FRetry n) ops).
Lemma step_refines f o f' evs : (forall n, o = FFind n -> 0 <= n) -> flt_step f o = (f', evs) -> refines_all [o] f f' (found_by (o, evs)).
Proof.
  intros Sa E. assert (K : (forall n, o <> FRetry n) -> refines f f' (found_by (o, evs)) -> refines_all [o] f f' (found_by (o, evs))).
  { intros N (a & b & H1 & H2 & H3 & H4 & H5). exists a, b. repeat (split; [assumption|]). intros n. split; [intros I; now apply H5 in I|]. intros [I|[]]. now apply N in I. }
  destruct o as [cfg w i|o|w id m|n|n|n]; cbn [flt_step] in E.
  - apply K; [discriminate|]. apply line_refines in E. exact E.
  - injection E as <- <-. apply K; [discriminate|]. now apply refines_same.
  - apply K; [discriminate|]. unfold add_attempt in E. destruct (ip_new id CUnspec) as [ip|]; [|injection E as <- <-; now apply refines_same].
    set (c := match m with [] => 1 | _ => Z.of_nat (length m) end) in *.
    assert (Hc : 0 <= c) by (unfold c; destruct m; lia).
    pose proof (report_refines f (new_ticket (key (ntoa ip)) (fw_now w) m 0) c (key (ntoa ip)) (fw_now w) eq_refl eq_refl eq_refl Hc) as R.
    destruct (add_failure (l_fm f) (new_ticket (key (ntoa ip)) (fw_now w) m 0) false c false) as [fm n]. cbn zeta in R. injection E as <- <-.
    unfold found_by. cbn [fst snd map]. replace (weight (FAttempt w id m)) with c by (unfold c; now destruct m). exact R.
  - injection E as <- <-. exists [FSetRetry n], [ONone]. cbn. rewrite app_nil_r. repeat split; auto; [repeat constructor| |]; intros [H|[]]; injection H as ->; auto.
  - injection E as <- <-. apply K; [discriminate|]. exists [FSetTime n], [ONone]. cbn. rewrite app_nil_r. repeat split; auto; [repeat constructor; now apply Sa|]. intros m [H|[]]. discriminate.
  - injection E as <- <-. apply K; [discriminate|]. exists [FSetMatches n], [ONone]. cbn. rewrite app_nil_r. repeat split; auto; [repeat constructor|]. intros m [H|[]]. discriminate.
Qed.
Lemma run_refines ops : forall f f' evs, sane_settings ops -> flt_run f ops = (f', evs) -> refines_all ops f f' (all_found ops evs).
Proof.
  induction ops as [|o ops IH]; cbn [flt_run]; intros f f' evs Sa E.
  - injection E as <- <-. exists [], []. cbn. rewrite app_nil_r. repeat split; auto.
  - destruct (flt_step f o) as [f1 e] eqn:E1. destruct (flt_run f1 ops) as [f2 es] eqn:E2. injection E as <- <-.
    apply step_refines in E1; [|intros n ->; apply Sa; now left]. apply IH in E2; [|intros n I; apply Sa; now right].
    destruct E1 as (a & oa & Ra & Ca & Qa & Fa & Na), E2 as (b & ob & Rb & Cb & Qb & Fb & Nb). exists (a ++ b), (oa ++ ob). rewrite fm_run_app, Ra, Rb. split; [reflexivity|].
    rewrite calls_app, handed_app, Ca, Cb, Qb, Qa, app_assoc. split; [reflexivity|]. split; [reflexivity|]. split; [now apply Forall_app|].
    intros n. rewrite in_app_iff, Na, Nb. cbn. intuition.
Qed.

(** ** ignored failures *)
Lemma check_same g w q k : g_cache g = None -> fst (check_ignore g w q k) = g.
Proof.
  intros H. unfold check_ignore, remember. rewrite H. destruct (_ && _); [reflexivity|]. destruct (set_mem _ _); [reflexivity|]. destruct (existsb _ _); [reflexivity|].
  destruct (g_cmd g); [reflexivity|]. destruct (w_run _ _); reflexivity.
Qed.
Lemma in_ignore_same g w q : g_cache g = None -> fst (in_ignore g w q) = g.
Proof. intros H. unfold in_ignore. rewrite H. now apply check_same. Qed.
Lemma count_ign w t l : forall f f' evs ok, g_cache (l_ign f) = None -> count_all w f t l = (f', evs, ok) -> l_ign f' = l_ign f.
Proof.
  induction l as [|[ip fl] l IH]; cbn [count_all]; intros f f' evs ok C E; [now injection E as <- <- <-|].
  set (t' := if t >? fw_now w then fw_now w else t) in *. pose proof (in_ignore_same (l_ign f) (fw w) (mkQ ip (fw_expand w ip t' fl)) C) as Is.
  destruct (in_ignore _ _ _) as [ig ans]. cbn [fst] in Is. subst ig. destruct ans as [[]|].
  - now apply IH in E.
  - destruct (add_failure _ _ _ _ _) as [fm n]. destruct (count_all w _ t l) as [[f2 evs2] ok2] eqn:E2. injection E as <- <- <-. apply IH in E2.
    + rewrite E2. destruct (n >=? fm_retry fm); [|reflexivity]. destruct (perform_ban _ _ _ _ _) as [[[? ?] ?]|]; reflexivity.
    + destruct (n >=? fm_retry fm); [|exact C]. destruct (perform_ban _ _ _ _ _) as [[[? ?] ?]|]; exact C.
  - now injection E as <- <- <-.
Qed.
Lemma line_ign cfg w f i : g_cache (l_ign f) = None -> l_ign (fst (line_step cfg w f i)) = l_ign f.
Proof.
  intros C. unfold line_step. pose proof (process_same cfg w f i) as P. destruct (process_line cfg w f i) as [[f1 o] t]. destruct P as (_ & _ & P & _).
  assert (CE : forall f0, l_ign (common_error f0) = l_ign f0) by (intros f0; unfold common_error; destruct (_ >=? _); auto).
  destruct o as [l|]; [|cbn; now rewrite CE]. destruct (count_all w f1 t l) as [[f2 evs] ok] eqn:E. apply count_ign in E; [|now rewrite P].
  destruct ok; cbn [negb fst]; [|now rewrite CE, E]. destruct (_ =? 0); [destruct (perform_svc _ _ _)|]; cbn; congruence.
Qed.
Lemma attempt_ign w f id m : l_ign (fst (add_attempt w f id m)) = l_ign f.
Proof.
  unfold add_attempt. destruct (ip_new id CUnspec); [|reflexivity]. destruct (add_failure _ _ _ _ _) as [fm n]. cbn [fst]. destruct (n >=? fm_retry fm); [|reflexivity].
  destruct (perform_ban _ _ _ _ _) as [[[? ?] ?]|]; reflexivity.
Qed.
Lemma cache_off o g : (forall c, o <> ICache (Some c)) -> g_cache g = None -> g_cache (fst (ign_step g o)) = None.
Proof.
  intros N C. destruct o as [s|s| |b|c|[x|]|w q]; cbn [ign_step fst]; auto.
  - unfold add_ignore. destruct s; [exact C|]. destruct (file_name _); [exact C|]. destruct (ip_new _ _); [|exact C]. destruct (set_mem _ _); [exact C|].
    destruct (list_has _ _) as [[]|]; try exact C. destruct (is_single _); exact C.
  - unfold del_ignore. destruct (list_remove _ _); destruct (file_name _); try exact C; destruct (set_remove _ _); exact C.
  - now destruct (N x).
  - now rewrite in_ignore_same.
Qed.
Lemma run_ign ops : forall f f' evs, no_cache (ignore_calls ops) -> g_cache (l_ign f) = None -> flt_run f ops = (f', evs) ->
  l_ign f' = fst (ign_run (l_ign f) (ignore_calls ops)) /\ g_cache (l_ign f') = None.
Proof.
  induction ops as [|o ops IH]; cbn [flt_run]; intros f f' evs N C E; [now injection E as <- <-|].
  destruct (flt_step f o) as [f1 e] eqn:E1. destruct (flt_run f1 ops) as [f2 es] eqn:E2. injection E as <- <-.
  destruct o as [cfg w i|o|w id m|n|n|n]; cbn [flt_step] in E1; cbn [ignore_calls] in *.
  - assert (H : l_ign f1 = l_ign f) by (change f1 with (fst (f1, e)); rewrite <- E1; now apply line_ign). rewrite <- H in *. eapply IH; eauto.
  - injection E1 as <- <-. cbn [ign_run]. destruct (ign_step (l_ign f) o) as [g b] eqn:Eg. cbn [fst] in *.
    assert (Cg : g_cache (l_ign (with_ign g f)) = None).
    { cbn [with_ign l_ign]. replace g with (fst (ign_step (l_ign f) o)) by now rewrite Eg. apply cache_off; [intros c ->; apply (N c); now left|exact C]. }
    destruct (IH _ _ _ (fun c I => N c (or_intror I)) Cg E2) as [H1 H2].
    cbn [with_ign l_ign] in H1. destruct (ign_run g (ignore_calls ops)). auto.
  - assert (H : l_ign f1 = l_ign f) by (destruct (add_attempt w f id m) as [fa ea] eqn:Ea; injection E1 as <- <-; pose proof (attempt_ign w f id m) as X; rewrite Ea in X; exact X).
    rewrite <- H in *. eapply IH; eauto.
  - injection E1 as <- <-. eapply IH in E2; eauto.
  - injection E1 as <- <-. eapply IH in E2; eauto.
  - injection E1 as <- <-. eapply IH in E2; eauto.
Qed.

(** the loop over the failures of a line *)
Lemma count_spec w t l : forall f f' evs ok, g_cache (l_ign f) = None -> count_all w f t l = (f', evs, ok) ->
  let t' := Z.min t (fw_now w) in
  let ask (x : ipaddr * fail) := snd (in_ignore (l_ign f) (fw w) (mkQ (fst x) (fw_expand w (fst x) t' (snd x)))) in
  exists kept dropped l1 l2, l = l1 ++ l2 /\ merge kept dropped l1 /\ evs = map (fun x => (fst x, t')) kept /\
    (forall x, In x kept -> ask x = Some false) /\ (forall x, In x dropped -> ask x = Some true) /\
    (if ok then l2 = [] else exists x r, l2 = x :: r /\ ask x = None).
Proof.
  induction l as [|[ip fl] l IH]; cbn [count_all]; intros f f' evs ok C E; cbn zeta.
  { injection E as <- <- <-. exists [], [], [], []. repeat split; try constructor; try (intros x []). }
  assert (Et : (if t >? fw_now w then fw_now w else t) = Z.min t (fw_now w)) by (destruct (Z.gtb_spec t (fw_now w)); lia). rewrite Et in E. clear Et.
  set (t' := Z.min t (fw_now w)) in *. set (ask := fun x : ipaddr * fail => snd (in_ignore (l_ign f) (fw w) (mkQ (fst x) (fw_expand w (fst x) t' (snd x))))).
  pose proof (in_ignore_same (l_ign f) (fw w) (mkQ ip (fw_expand w ip t' fl)) C) as Is.
  assert (A : ask (ip, fl) = snd (in_ignore (l_ign f) (fw w) (mkQ ip (fw_expand w ip t' fl)))) by reflexivity.
  destruct (in_ignore (l_ign f) (fw w) (mkQ ip (fw_expand w ip t' fl))) as [ig ans]. cbn [fst snd] in *. subst ig. destruct ans as [[]|].
  - destruct (IH (with_ign (l_ign f) f) _ _ _ C E) as (k & d & l1 & l2 & -> & M & Ev & K & D & O). cbn [with_ign l_ign] in K, D, O. fold ask in K, D, O.
    exists k, ((ip, fl) :: d), ((ip, fl) :: l1), l2. split; [reflexivity|]. split; [now constructor|]. split; [exact Ev|]. split; [exact K|]. split; [|exact O].
    intros x [<-|I]; auto.
  - destruct (add_failure _ _ _ _ _) as [fm n]. destruct (count_all w _ t l) as [[f2 evs2] ok2] eqn:E2. injection E as <- <- <-.
    match type of E2 with count_all w ?g _ _ = _ => assert (G : l_ign g = l_ign f) by (destruct (n >=? fm_retry fm); [|reflexivity]; destruct (perform_ban _ _ _ _ _) as [[[? ?] ?]|]; reflexivity) end.
    apply IH in E2; [|now rewrite G]. cbn zeta in E2. rewrite G in E2. fold t' in E2. fold ask in E2. destruct E2 as (k & d & l1 & l2 & -> & M & Ev & K & D & O).
    exists ((ip, fl) :: k), d, ((ip, fl) :: l1), l2. split; [reflexivity|]. split; [now constructor|]. split; [cbn [map fst]; now rewrite Ev|]. split; [|split; [exact D|exact O]].
    intros x [<-|I]; auto.
  - injection E as <- <- <-. exists [], [], [], ((ip, fl) :: l). split; [reflexivity|]. split; [constructor|]. split; [reflexivity|]. split; [intros x []|]. split; [intros x []|]. eauto.
Qed.

(** ** the time of a line *)
Lemma slice_empty (t : text) s e : firstn (e - s) (skipn s t) = [] <-> Nat.ltb s (Nat.min e (length t)) = false.
Proof.
  split.
  - intros H. apply (f_equal (@length _)) in H. rewrite firstn_length, skipn_length in H. cbn in H. lia.
  - intros H. apply length_zero_iff_nil. rewrite firstn_length, skipn_length. lia.
Qed.
Lemma recent_eq now ld : (match truthy_date ld with Some d => if d >? now - 60 then Some d else None | None => None end) = recent now ld.
Proof.
  unfold truthy_date, recent. destruct ld as [d|]; [|reflexivity]. destruct (Z.eqb_spec d 0); cbn [orb]; [reflexivity|].
  destruct (Z.gtb_spec d (now - 60)), (Z.leb_spec d (now - 60)); auto; lia.
Qed.
(** the date that processLine works with, and the memory *)
Lemma line_date_spec w oper lt ld i : let '(_, ld', _, d) := line_date w oper lt ld i in
  d = taken_time oper w ld i /\ ld' = match stamp w i with Some d => Some d | None => ld end.
Proof.
  unfold line_date, taken_time. rewrite recent_eq. destruct i as [t|[[a t] b] d]; [|cbn; auto]. unfold stamp, optional_stamp.
  destruct (fw_detect w t) as [[[s e] d]|].
  - destruct (firstn (e - s) (skipn s t)) as [|c m] eqn:M.
    + apply slice_empty in M. rewrite M. cbn [negb]. rewrite orb_true_r. destruct (recent _ _), d; auto.
    + assert (L : Nat.ltb s (Nat.min e (length t)) = true).
      { destruct (Nat.ltb s (Nat.min e (length t))) eqn:L; [reflexivity|]. apply slice_empty in L. congruence. }
      rewrite L. cbn [negb]. rewrite orb_false_r. destruct d as [d|]; [auto|]. destruct (recent _ _); auto.
  - rewrite orb_false_r. destruct (recent _ _); auto.
Qed.
Lemma odd_eq now d : (Z.abs (d - now) >? 60) = odd now d.
Proof. unfold odd. lia. Qed.
Lemma process_time cfg w f i : let '(f', o, t) := process_line cfg w f i in
  (match line_time (c_operation cfg) (fm_time (l_fm f)) w (l_date f) i with
   | None => o = Failures [] \/ (taken_time (c_operation cfg) w (l_date f) i = None /\ t = fw_now w)
   | Some t' => Z.min t (fw_now w) = t'
   end) /\ l_date f' = last1 (l_date f) (FLine cfg w i).
Proof.
  unfold process_line, line_time. pose proof (line_date_spec w (c_operation cfg) (l_text f) (l_date f) i) as D.
  destruct (line_date _ _ _ _ _) as [[[lt ld] l] d]. destruct D as [-> ->]. cbn [last1].
  destruct (taken_time (c_operation cfg) w (l_date f) i) as [d|].
  - unfold sane_date. rewrite odd_eq. destruct (c_operation cfg); cbn [andb].
    + destruct (find_failure _ _ _ _ _ _) as [[lb s] o]. split; [destruct (odd _ _); lia|reflexivity].
    + destruct (d <? fw_now w - fm_time (l_fm f)); [auto|]. destruct (find_failure _ _ _ _ _ _) as [[lb s] o]. auto.
  - destruct (find_failure _ _ _ _ _ _) as [[lb s] o]. auto.
Qed.
(** undated lines are not counted *)
Lemma find_undated cfg w org pre : forall regs buf lb s l, snd (find_loop cfg w false org pre regs buf lb s) = Failures l -> l = [].
Proof.
  induction regs as [|r regs IH]; cbn [find_loop]; intros buf lb s l E; [now injection E as <-|]. destruct (search r buf org); [|eauto].
  destruct (ignore_line _ _ _); [now injection E as <-|]. cbn [negb] in E. eauto.
Qed.
Lemma find_undated_raise cfg w org pre : forall regs buf lb s, snd (find_loop cfg w false org pre regs buf lb s) <> Raised.
Proof.
  induction regs as [|r regs IH]; cbn [find_loop]; intros buf lb s; [discriminate|]. destruct (search r buf org); [|eauto].
  destruct (ignore_line _ _ _); [discriminate|]. cbn [negb]. eauto.
Qed.
Lemma find_failure_undated cfg w lb s l : snd (find_failure cfg w lb s l false) = Failures [].
Proof.
  assert (H : forall org pre regs buf lb s, snd (find_loop cfg w false org pre regs buf lb s) = Failures []).
  { intros org pre regs buf lb0 s0. destruct (snd (find_loop cfg w false org pre regs buf lb0 s0)) as [x|] eqn:E; [apply find_undated in E; now subst|now apply find_undated_raise in E]. }
  unfold find_failure. destruct (_ && _); [reflexivity|]. destruct (c_pref cfg) as [p|]; [|apply H]. destruct (search _ _ _); [|reflexivity].
  destruct (gtext _ _) as [[|? ?]|]; apply H.
Qed.
Lemma process_undated cfg w f i : let '(f', o, t) := process_line cfg w f i in
  line_time (c_operation cfg) (fm_time (l_fm f)) w (l_date f) i = None -> o = Failures [].
Proof.
  pose proof (process_time cfg w f i) as P. destruct (process_line cfg w f i) as [[f' o] t] eqn:E. destruct P as [P _]. intros H. rewrite H in P. destruct P as [P|[P _]]; [exact P|].
  unfold process_line in E. pose proof (line_date_spec w (c_operation cfg) (l_text f) (l_date f) i) as D.
  destruct (line_date _ _ _ _ _) as [[[lt ld] l] d]. destruct D as [-> _]. rewrite P in E.
  pose proof (find_failure_undated cfg w (l_buf f) (l_sess f) l) as U. destruct (find_failure _ _ _ _ _ _) as [[lb s] o']. cbn in U. now injection E as _ <- _.
Qed.
Lemma count_time w t l : forall f f' evs ok, count_all w f t l = (f', evs, ok) -> forall e, In e evs -> snd e = Z.min t (fw_now w).
Proof.
  induction l as [|[ip fl] l IH]; cbn [count_all]; intros f f' evs ok E; [injection E as <- <- <-; intros e []|].
  destruct (in_ignore _ _ _) as [ig [[]|]]; [eauto| |injection E as <- <- <-; intros e []].
  destruct (add_failure _ _ _ _ _) as [fm n]. destruct (count_all w _ t l) as [[f2 evs2] ok2] eqn:E2. injection E as <- <- <-. intros e [<-|I]; [|eauto].
  cbn [snd]. destruct (Z.gtb_spec t (fw_now w)); lia.
Qed.
Lemma line_times cfg w f i : match line_time (c_operation cfg) (fm_time (l_fm f)) w (l_date f) i with
  | None => snd (line_step cfg w f i) = []
  | Some t => forall e, In e (snd (line_step cfg w f i)) -> snd e = t
  end.
Proof.
  pose proof (process_time cfg w f i) as P. pose proof (process_undated cfg w f i) as U. unfold line_step. destruct (process_line cfg w f i) as [[f1 o] t]. destruct P as [P _].
  destruct (line_time _ _ _ _ _) as [t'|].
  - destruct o as [l|]; [|intros e []]. destruct (count_all w f1 t l) as [[f2 evs] ok] eqn:E. pose proof (count_time _ _ _ _ _ _ _ E) as T. destruct ok; cbn [negb snd]; intros e I; rewrite <- P; auto.
  - rewrite (U eq_refl). cbn. reflexivity.
Qed.
(** settings and memory over a history *)
Lemma count_settings w t l : forall f f' evs ok, count_all w f t l = (f', evs, ok) -> fm_time (l_fm f') = fm_time (l_fm f) /\ l_date f' = l_date f /\ l_buf f' = l_buf f /\ l_sess f' = l_sess f /\ l_lines f' = l_lines f /\ l_errors f' = l_errors f /\ l_idle f' = l_idle f.
Proof.
  assert (B : forall f0 tk c id now, fm_time (l_fm (let '(fm, n) := add_failure (l_fm f0) tk false c false in
     let f1 := with_fm fm (l_svc f0) (l_queue f0) f0 in
             if n >=? fm_retry fm then match perform_ban fm (Some id) now (l_svc f0) (l_queue f0) with Some (fm, nx, q) => with_fm fm nx q f1 | None => f1 end else f1)) = fm_time (l_fm f0)).
  { intros f0 tk c id now. destruct (add_failure (l_fm f0) tk false c false) as [fm n] eqn:Ea.
    assert (A : fm_time fm = fm_time (l_fm f0)) by (unfold add_failure in Ea; repeat match type of Ea with context [match ?x with _ => _ end] => destruct x end; injection Ea as <- <-; reflexivity).
    cbn zeta. destruct (n >=? fm_retry fm); [|exact A]. unfold perform_ban. cbn [ban_loop]. destruct (to_ban fm (Some id)) as [fm2 r] eqn:Et.
    assert (T : fm_time fm2 = fm_time fm) by (unfold to_ban in Et; destruct (first_bannable _ _) as [[k x]|]; injection Et as <- <-; reflexivity).
    assert (S : forall fm nx, fm_time (fst (perform_svc fm now nx)) = fm_time fm) by (intros g nx; unfold perform_svc; destruct (now >=? nx); [apply cleanup_other|reflexivity]).
    specialize (S fm2 (l_svc f0)). destruct r as [x|]; destruct (perform_svc fm2 now (l_svc f0)) as [fm3 nx]; cbn [with_fm l_fm fst] in *; congruence. }
  induction l as [|[ip fl] l IH]; cbn [count_all]; intros f f' evs ok E; [injection E as <- <- <-; auto 10|].
  set (t' := if t >? fw_now w then fw_now w else t) in *. destruct (in_ignore _ _ _) as [ig [[]|]].
  - apply IH in E. exact E.
  - specialize (B (with_ign ig f) (ticket_of ip t' fl) 1 (key (ntoa ip)) (fw_now w)). destruct (add_failure _ _ _ _ _) as [fm n]. cbn zeta in B.
    destruct (count_all w _ t l) as [[f2 evs2] ok2] eqn:E2. injection E as <- <- <-. apply IH in E2. cbn [with_ign l_svc l_queue] in *.
    destruct E2 as (E2 & E3 & E4 & E5 & E6 & E7 & E8). split; [etransitivity; [exact E2|exact B]|].
    rewrite E3, E4, E5, E6, E7, E8. destruct (n >=? fm_retry fm); [|auto 10]. destruct (perform_ban _ _ _ _ _) as [[[? ?] ?]|]; auto 10.
  - injection E as <- <- <-. auto 10.
Qed.
Lemma svc_time fm now nx : fm_time (fst (perform_svc fm now nx)) = fm_time fm.
Proof. unfold perform_svc. destruct (now >=? nx); [apply cleanup_other|reflexivity]. Qed.
Lemma line_memory cfg w f i : l_date (fst (line_step cfg w f i)) = last1 (l_date f) (FLine cfg w i) /\ fm_time (l_fm (fst (line_step cfg w f i))) = fm_time (l_fm f).
Proof.
  pose proof (process_time cfg w f i) as P. pose proof (process_same cfg w f i) as S. unfold line_step. destruct (process_line cfg w f i) as [[f1 o] t]. destruct P as [_ P]. destruct S as (S & _).
  assert (CE : forall f0, l_date (common_error f0) = l_date f0 /\ l_fm (common_error f0) = l_fm f0) by (intros f0; unfold common_error; destruct (_ >=? _); auto).
  destruct o as [l|].
  - destruct (count_all w f1 t l) as [[f2 evs] ok] eqn:E. apply count_settings in E as (E1 & E2 & _). destruct ok; cbn [negb fst].
    + cbn [with_count l_lines]. pose proof (svc_time (l_fm f2) (fw_now w) (l_svc f2)) as Sv. destruct (_ =? 0); cbn [with_count l_fm l_svc l_queue]; [destruct (perform_svc _ _ _)|]; cbn in *; split; congruence.
    + destruct (CE f2) as [-> ->]. split; congruence.
  - cbn [fst]. destruct (CE f1) as [-> ->]. split; congruence.
Qed.
Lemma attempt_memory w f id m : l_date (fst (add_attempt w f id m)) = l_date f /\ fm_time (l_fm (fst (add_attempt w f id m))) = fm_time (l_fm f).
Proof.
  unfold add_attempt. destruct (ip_new id CUnspec) as [ip|]; [|auto]. destruct (add_failure _ _ _ _ _) as [fm n] eqn:Ea. cbn [fst].
  assert (A : fm_time fm = fm_time (l_fm f)) by (unfold add_failure in Ea; repeat match type of Ea with context [match ?x with _ => _ end] => destruct x end; injection Ea as <- <-; reflexivity).
  destruct (n >=? fm_retry fm); [|auto]. unfold perform_ban. cbn [ban_loop]. destruct (to_ban fm _) as [fm2 r] eqn:Et.
  assert (T : fm_time fm2 = fm_time fm) by (unfold to_ban in Et; destruct (first_bannable _ _) as [[k x]|]; injection Et as <- <-; reflexivity).
  pose proof (svc_time fm2 (fw_now w) (l_svc f)) as S. cbn [with_fm l_svc l_queue]. destruct r as [x|]; destruct (perform_svc fm2 (fw_now w) (l_svc f)) as [fm3 nx]; cbn [fst with_fm l_date l_fm] in *; split; congruence.
Qed.
Lemma run_memory ops : forall f f' evs, flt_run f ops = (f', evs) -> l_date f' = fold_left last1 ops (l_date f) /\ fm_time (l_fm f') = findtime (fm_time (l_fm f)) ops.
Proof.
  induction ops as [|o ops IH]; cbn [flt_run]; intros f f' evs E; [injection E as <- <-; auto|].
  destruct (flt_step f o) as [f1 e] eqn:E1. destruct (flt_run f1 ops) as [f2 es] eqn:E2. injection E as <- <-. apply IH in E2. cbn [fold_left findtime].
  destruct o as [cfg w i|o|w id m|n|n|n]; cbn [flt_step] in E1.
  - pose proof (line_memory cfg w f i) as [M1 M2]. rewrite E1 in M1, M2. cbn [fst] in *. rewrite <- M1, <- M2. exact E2.
  - injection E1 as <- <-. exact E2.
  - pose proof (attempt_memory w f id m) as [M1 M2]. destruct (add_attempt w f id m). injection E1 as <- <-. cbn [fst last1] in *. rewrite <- M1, <- M2. exact E2.
  - injection E1 as <- <-. exact E2.
  - injection E1 as <- <-. exact E2.
  - injection E1 as <- <-. exact E2.
Qed.
