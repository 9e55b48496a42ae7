(** C28 (second part), C29, C58, C59 and C60: what a filter makes of its lines. *)
From Verif Require Import Base Text IPAddr_Model IPAddr_Spec Utils_Model Lines_Model Lines_Spec Session_Model Session_Spec Session_Proofs2 Ignore_Model Ignore_Spec Ignore_Props
  Ticket_Model FailManager_Model FailManager_Proofs Filter_Model Filter_Spec Filter_Proofs Filter_Proofs2 Filter_Proofs3.
Require Import ZifyBool ZifyNat.
From Coq Require Import List.
Local Open Scope list_scope.

(** The filter after a history of calls; the failures it finds (and counts) in a line that comes then. *)
Definition after (ops : list flt_op) : flt := fst (flt_run flt_init ops).
Definition line_found (ops : list flt_op) (cfg : fcfg) (w : fworld) (i : input) : list (ipaddr * Z) :=
  snd (flt_step (after ops) (FLine cfg w i)).
Lemma after_run ops : exists evs, flt_run flt_init ops = (after ops, evs).
Proof. unfold after. destruct (flt_run flt_init ops) as [f evs]. now exists evs. Qed.
Lemma after_date ops : l_date (after ops) = last_time ops /\ fm_time (l_fm (after ops)) = findtime 600 ops.
Proof. destruct (after_run ops) as [evs E]. apply run_memory in E. exact E. Qed.

(** ** C58 *)
(** Whatever the history, the failure list and the tickets handed to the jail are those of a failure
    manager whose calls of addFailure are exactly the failures found, in this order, with these IDs,
    times and weights. *)
Theorem C58_refinement ops f evs : sane_settings ops -> flt_run flt_init ops = (f, evs) ->
  exists fops outs, fm_run fm_init fops = (l_fm f, outs) /\ calls_reported fops = all_found ops evs /\ l_queue f = handed outs /\
    Forall filter_call fops /\ (forall n, In (FSetRetry n) fops <-> In (FRetry n) ops).
Proof.
  intros S E. apply run_refines in E; [|exact S]. destruct E as (fops & outs & E1 & E2 & E3 & E4 & E5). exists fops, outs. cbn in E1, E3. auto.
Qed.
(** So for each ban of an ID at least maxretry failures of this ID were found. *)
Theorem C58_ban_needs_failures R id ops f evs : sane_settings ops -> R <= 3 -> (forall n, In (FRetry n) ops -> R <= n) -> flt_run flt_init ops = (f, evs) ->
  R * bans id (l_queue f) <= total id (all_found ops evs).
Proof.
  intros S R3 Rn E. destruct (C58_refinement ops f evs S E) as (fops & outs & E1 & E2 & E3 & E4 & E5).
  destruct (bans_le R id fops fm_init (l_fm f) outs) as [_ B]; [split; cbn; [reflexivity|lia]|exact E4|exact R3|intros n I; apply Rn, E5, I|exact E1|]. rewrite E2 in B. rewrite E3. revert B. match goal with |- context [match ?x with _ => _ end] => destruct x end; lia.
Qed.
(** And no ID that has reached maxretry waits: it is banned with the failure that reaches it (unless
    maxretry is lowered later). *)
Theorem C58_prompt ops f evs : never_lowered 3 ops -> flt_run flt_init ops = (f, evs) ->
  forall id t, dget id (fm_list (l_fm f)) = Some t -> t_retry t < fm_retry (l_fm f).
Proof.
  intros N E. apply run_low in E as [_ L]; [exact L| |exact N]. split; [constructor|]. cbn. discriminate.
Qed.

(** ** C28 *)
Lemma run_app ops ops' : forall f, flt_run f (ops ++ ops') = let '(f1, e1) := flt_run f ops in let '(f2, e2) := flt_run f1 ops' in (f2, e1 ++ e2).
Proof.
  induction ops as [|o ops IH]; intros f; cbn [flt_run app]; [now destruct (flt_run f ops')|].
  destruct (flt_step f o) as [f1 e]. rewrite IH. destruct (flt_run f1 ops) as [f2 e2]. destruct (flt_run f2 ops') as [f3 e3]. reflexivity.
Qed.
Lemma after_nothing ops : no_cache (ignore_calls ops) -> exists g, after (ops ++ ignore_nothing) = with_ign g (after ops) /\
  g_self g = false /\ g_set g = [] /\ g_list g = [] /\ g_cmd g = [] /\ g_cache g = None.
Proof.
  intros C. destruct (after_run ops) as [evs E]. pose proof (run_ign ops flt_init _ _ C eq_refl E) as [_ Cn].
  exists (mkIgn false [] [] [] None). split; [|auto]. unfold after at 1. rewrite run_app, E. cbn. rewrite Cn. reflexivity.
Qed.
(** Whatever the history (no cache): if nothing were ignored, a line would give a list of failures,
    with their time.  Of these are counted, in order, those that are not ignored; what is not counted
    is ignored; only after a failure whose ignore command cannot be started the rest is lost. *)
Theorem C28_counted ops L cfg w i : no_bracket_file (ignore_calls ops) -> no_cache (ignore_calls ops) -> in_force [] (ignore_calls ops) (replies (ignore_calls ops)) L -> sane_world (fw w) ->
  exists t (all kept dropped rest : list (ipaddr * fail)),
    let ask x := mkQ (fst x) (fw_expand w (fst x) t (snd x)) in
    let is_ignored x := ignored (ignore_calls ops) L (fw w) (ask x) in
    line_found (ops ++ ignore_nothing) cfg w i = map (fun x => (fst x, t)) (all ++ rest) /\
    merge kept dropped all /\
    line_found ops cfg w i = map (fun x => (fst x, t)) kept /\
    (forall x, In x kept -> address (fst x) -> ~ is_ignored x) /\
    (forall x, In x dropped -> address (fst x) -> is_ignored x) /\
    (rest = [] \/ exists x r, rest = x :: r /\ (address (fst x) -> ~ is_ignored x /\ last_command [] (ignore_calls ops) <> [] /\
                                                w_run (fw w) (q_expand (ask x) (last_command [] (ignore_calls ops))) = None)).
Proof.
  intros N C F W. unfold line_found. destruct (after_nothing ops C) as (g & -> & G1 & G2 & G3 & G4 & G5). cbn [flt_step].
  destruct (after_run ops) as [evs E]. pose proof (run_ign ops flt_init _ _ C eq_refl E) as [Ig Cn]. change (l_ign flt_init) with ign_init in Ig. fold (after_ops (ignore_calls ops)) in Ig.
  unfold line_step at 1. rewrite process_ign. unfold line_step. pose proof (process_same cfg w (after ops) i) as P. destruct (process_line cfg w (after ops) i) as [[f1 o] t]. destruct P as (_ & _ & P & _).
  destruct o as [l|]; [|exists t, [], [], [], []; cbn; repeat (split; [solve [auto]|]); split; [constructor|]; split; [auto|]; repeat split; auto; contradiction].
  destruct (count_all w (with_ign g f1) t l) as [[f2 e2] ok2] eqn:E2. apply count_nothing in E2 as [-> ->]; auto.
  destruct (count_all w f1 t l) as [[f3 e3] ok3] eqn:E3. apply count_spec in E3; [|now rewrite P]. cbn zeta in E3. destruct E3 as (kept & dropped & l1 & l2 & -> & M & -> & Hk & Hd & Hr).
  exists (Z.min t (fw_now w)), l1, kept, dropped, l2. cbn [negb snd]. split; [reflexivity|]. split; [exact M|].
  split; [destruct ok3; reflexivity|].
  set (ask := fun x : ipaddr * fail => mkQ (fst x) (fw_expand w (fst x) (Z.min t (fw_now w)) (snd x))) in *.
  assert (Q : forall x, snd (in_ignore (l_ign f1) (fw w) (ask x)) = asked (ignore_calls ops) (fw w) (ask x)) by (intros x; now rewrite P, Ig).
  split; [|split].
  - intros x I A. specialize (Hk x I). fold (ask x) in Hk. rewrite Q in Hk. fold (ask x). rewrite <- C28_ignored by (auto; exact A). congruence.
  - intros x I A. specialize (Hd x I). fold (ask x) in Hd. rewrite Q in Hd. fold (ask x). rewrite <- C28_ignored by (auto; exact A). exact Hd.
  - destruct ok3; [now left|right]. destruct Hr as (x & r & -> & Hr). exists x, r. split; [reflexivity|]. intros A. fold (ask x) in Hr. rewrite Q in Hr. fold (ask x).
    rewrite <- C28_ignored by (auto; exact A). split; [congruence|]. apply (C28_answered _ L) in Hr; auto. tauto.
Qed.

(** ** C29 *)
(** The time of a failure is that of its line: its time stamp, if it has none that of the line before
    (if recent), and so on as [line_time] says; lines without a time are not counted. *)
Theorem C29_time ops cfg w i :
  match line_time (c_operation cfg) (findtime 600 ops) w (last_time ops) i with
  | None => line_found ops cfg w i = []
  | Some t => forall e, In e (line_found ops cfg w i) -> snd e = t
  end.
Proof. unfold line_found. destruct (after_date ops) as [<- <-]. exact (line_times cfg w (after ops) i). Qed.
(** So before operation nothing older than findtime is counted, in operation nothing older than a
    minute, and nothing is counted for the future. *)
Theorem C29_window ops cfg w i e : In e (line_found ops cfg w i) -> 0 <= findtime 600 ops ->
  fw_now w - (if c_operation cfg then 60 else findtime 600 ops) <= snd e <= fw_now w.
Proof.
  intros I F. pose proof (C29_time ops cfg w i) as T. destruct (line_time _ _ _ _ _) as [t|] eqn:E; [|rewrite T in I; contradiction]. apply T in I. rewrite I. clear I T.
  unfold line_time in E. destruct (taken_time _ _ _ _) as [d|]; [|discriminate]. destruct (c_operation cfg).
  - injection E as <-. unfold odd. destruct (Z.ltb_spec d (fw_now w - 60)), (Z.ltb_spec (fw_now w + 60) d); cbn [orb]; lia.
  - destruct (Z.ltb_spec d (fw_now w - findtime 600 ops)); [discriminate|]. injection E as <-. lia.
Qed.
(** A line from before the start whose time is older than findtime changes neither the buffer, nor
    the sessions, nor the ignore list, nor what is banned; the failure list is at most cleaned up. *)
Theorem C29_old ops cfg w i d : c_operation cfg = false -> taken_time false w (last_time ops) i = Some d -> d < fw_now w - findtime 600 ops ->
  let f := after ops in let f' := fst (flt_step f (FLine cfg w i)) in
  line_found ops cfg w i = [] /\ l_buf f' = l_buf f /\ l_sess f' = l_sess f /\ l_ign f' = l_ign f /\ l_queue f' = l_queue f /\
  (l_fm f' = l_fm f \/ l_fm f' = cleanup (l_fm f) (fw_now w)).
Proof.
  intros O T Od. cbn zeta. destruct (after_date ops) as [D F]. unfold line_found. cbn [flt_step]. unfold line_step, process_line. rewrite O.
  pose proof (line_date_spec w false (l_text (after ops)) (l_date (after ops)) i) as L. destruct (line_date _ _ _ _ _) as [[[lt ld] l] dd]. destruct L as [-> _]. rewrite D, T.
  unfold sane_date. rewrite F. destruct (Z.ltb_spec d (fw_now w - findtime 600 ops)); [|lia]. cbn [count_all negb]. cbn [with_date with_count with_fm l_lines l_fm l_svc l_queue].
  destruct (_ =? 0); cbn [fst snd with_count with_date with_fm l_lines l_fm l_svc l_queue l_buf l_sess l_ign l_errors]; [|auto 10].
  unfold perform_svc. destruct (_ >=? _); cbn [fst snd with_count with_date with_fm l_lines l_fm l_svc l_queue l_buf l_sess l_ign l_errors]; auto 10.
Qed.

(** ** C59 *)
(** The text that the regular expressions see for a single line: it ends in a new-line. *)
Definition searched (ops : list flt_op) (w : fworld) (i : input) : text := text_searched w (last_time ops) i ++ [nl].
Definition single_lines (cfg : fcfg) : Prop := (c_maxlines cfg <= 1)%nat /\ c_pref cfg = None.
Lemma searched_buf ops w oper i : let '(_, _, l, _) := line_date w oper (l_text (after ops)) (l_date (after ops)) i in line_buf l = searched ops w i.
Proof.
  pose proof (shown_text w oper (l_text (after ops)) (l_date (after ops)) i) as S. destruct (line_date _ _ _ _ _) as [[[lt ld] l] d]. unfold line_buf, lines_buf, searched. cbn [map join].
  rewrite S. destruct (after_date ops) as [-> _]. reflexivity.
Qed.
Lemma quiet_line ops cfg w i : (forall l lb s dated, line_buf l = searched ops w i -> let '(_, s', o) := find_failure cfg w lb s l dated in s' = s /\ o = Failures []) ->
  let f := after ops in let f' := fst (flt_step f (FLine cfg w i)) in
  line_found ops cfg w i = [] /\ l_sess f' = l_sess f /\ l_queue f' = l_queue f /\ (l_fm f' = l_fm f \/ l_fm f' = cleanup (l_fm f) (fw_now w)).
Proof.
  intros H. cbn zeta. unfold line_found. cbn [flt_step]. unfold line_step. pose proof (process_same cfg w (after ops) i) as P.
  assert (Q : let '(f1, o, _) := process_line cfg w (after ops) i in l_sess f1 = l_sess (after ops) /\ o = Failures []).
  { unfold process_line. pose proof (searched_buf ops w (c_operation cfg) i) as S. destruct (line_date _ _ _ _ _) as [[[lt ld] l] [d|]].
    - destruct (sane_date _ _ _ _); [|auto]. specialize (H l (l_buf (after ops)) (l_sess (after ops)) true S). destruct (find_failure _ _ _ _ _ _) as [[lb s] o]. exact H.
    - specialize (H l (l_buf (after ops)) (l_sess (after ops)) false S). destruct (find_failure _ _ _ _ _ _) as [[lb s] o]. exact H. }
  destruct (process_line cfg w (after ops) i) as [[f1 o] t]. destruct Q as [Q ->]. destruct P as (P1 & P2 & _). cbn [count_all negb]. cbn [with_count with_fm l_lines l_fm l_svc l_queue].
  destruct (_ =? 0); cbn [fst snd with_count with_fm l_lines l_fm l_svc l_queue l_sess l_errors]; [|rewrite P1, P2, Q; auto 10].
  unfold perform_svc. destruct (_ >=? _); cbn [fst snd with_count with_fm l_lines l_fm l_svc l_queue l_sess l_errors]; rewrite P1, P2, Q; auto 10.
Qed.
(** A line that an ignoreregex matches gives no failure, and leaves sessions and failures alone. *)
Theorem C59_ignored ops cfg w i : single_lines cfg -> (exists p, In p (c_ignore cfg) /\ matches p (searched ops w i)) ->
  let f := after ops in let f' := fst (flt_step f (FLine cfg w i)) in
  line_found ops cfg w i = [] /\ l_sess f' = l_sess f /\ l_queue f' = l_queue f /\ (l_fm f' = l_fm f \/ l_fm f' = cleanup (l_fm f) (fw_now w)).
Proof. intros [S1 S2] H. apply quiet_line. intros l lb s dated E. apply find_ignored; auto. now rewrite E. Qed.
(** So does a line that no failregex matches. *)
Theorem C59_none ops cfg w i : single_lines cfg -> (forall p, In p (c_fail cfg) -> ~ matches p (searched ops w i)) ->
  let f := after ops in let f' := fst (flt_step f (FLine cfg w i)) in
  line_found ops cfg w i = [] /\ l_sess f' = l_sess f /\ l_queue f' = l_queue f /\ (l_fm f' = l_fm f \/ l_fm f' = cleanup (l_fm f) (fw_now w)).
Proof.
  intros [S1 S2] H. apply quiet_line. intros l lb s dated E. unfold find_failure. destruct (Nat.ltb_spec 1 (c_maxlines cfg)); [lia|]. fold (line_buf l). destruct (_ && _); [auto|].
  rewrite S2, loop_none by (now rewrite E). auto.
Qed.
(** Otherwise the first failregex that matches decides, if it names somebody: the others may as well
    not be there. *)
Theorem C59_first ops cfg w i pre r post m : single_lines cfg -> (forall p, In p (c_ignore cfg) -> ~ matches p (searched ops w i)) ->
  c_fail cfg = pre ++ r :: post -> (forall p, In p pre -> ~ matches p (searched ops w i)) -> r (searched ops w i) = Some m -> dwf (m_groups m) -> names_someone (m_groups m) ->
  flt_step (after ops) (FLine cfg w i) = flt_step (after ops) (FLine (with_fail [r] cfg) w i).
Proof.
  intros [S1 S2] N F Np M W G. cbn [flt_step]. unfold line_step.
  assert (E : process_line cfg w (after ops) i = process_line (with_fail [r] cfg) w (after ops) i); [|now rewrite E].
  unfold process_line. change (c_operation (with_fail [r] cfg)) with (c_operation cfg). pose proof (searched_buf ops w (c_operation cfg) i) as S. destruct (line_date _ _ _ _ _) as [[[lt ld] l] [d|]].
  - destruct (sane_date _ _ _ _); [|reflexivity]. rewrite (find_first cfg w _ _ l true pre r post m) by (rewrite ?S; assumption). reflexivity.
  - rewrite (find_first cfg w _ _ l false pre r post m) by (rewrite ?S; assumption). reflexivity.
Qed.
(** And if it names no session and the line has a time, then (if nothing is ignored) just those are
    found whom its groups name, each once, at the time of the line. *)
Theorem C59_found ops cfg w i pre r post m t ids : single_lines cfg -> (forall p, In p (c_ignore cfg) -> ~ matches p (searched ops w i)) ->
  c_fail cfg = pre ++ r :: post -> (forall p, In p pre -> ~ matches p (searched ops w i)) -> r (searched ops w i) = Some m -> dwf (m_groups m) -> names_someone (m_groups m) ->
  no_cache (ignore_calls ops) -> gtext (m_groups m) "mlfid" = None -> who (c_raw cfg) (fw_dns w) (gtext (m_groups m)) = Some ids ->
  line_time (c_operation cfg) (findtime 600 ops) w (last_time ops) i = Some t ->
  line_found (ops ++ ignore_nothing) cfg w i = map (fun ip => (ip, t)) ids.
Proof.
  intros [S1 S2] N F Np M W G C Ml Wh T. unfold line_found. destruct (after_nothing ops C) as (g & -> & G1 & G2 & G3 & G4 & G5). cbn [flt_step]. unfold line_step. rewrite process_ign.
  pose proof (process_time cfg w (after ops) i) as P. destruct (after_date ops) as [D1 D2]. rewrite D1, D2, T in P.
  assert (Q : let '(_, o, _) := process_line cfg w (after ops) i in exists fl, o = Failures (map (fun ip => (ip, fl)) ids)).
  { unfold process_line. pose proof (searched_buf ops w (c_operation cfg) i) as S. pose proof (line_date_spec w (c_operation cfg) (l_text (after ops)) (l_date (after ops)) i) as Ld.
    destruct (line_date _ _ _ _ _) as [[[lt ld] l] dd]. destruct Ld as [-> _]. rewrite D1. unfold line_time in T. destruct (taken_time _ _ _ _) as [d|]; [|discriminate].
    assert (Sd : sane_date (c_operation cfg) (fm_time (l_fm (after ops))) (fw_now w) d <> None).
    { unfold sane_date. destruct (c_operation cfg); [discriminate|]. rewrite D2. destruct (_ <? _); [discriminate|discriminate]. }
    destruct (sane_date _ _ _ _) as [d'|]; [|congruence]. rewrite find_single by (rewrite ?S; assumption). rewrite F, loop_skip by (now rewrite S).
    rewrite (loop_first cfg w true l r post _ m) by (rewrite ?update_all_nil; rewrite ?S; assumption). rewrite update_all_nil by exact W.
    unfold take_match. rewrite Ml. set (fl := mkFail (m_groups m) [] [l] [] false None). pose proof (identify_spec (c_raw cfg) (fw_dns w) false fl) as I. cbn zeta in I. change (f_groups fl) with (m_groups m) in I.
    assert (V : fst (identify (c_raw cfg) (fw_dns w) false fl) = VFound ids (snd (identify (c_raw cfg) (fw_dns w) false fl))).
    { destruct (gtext (m_groups m) "fid") eqn:X1; [rewrite Wh in I; apply I|]. destruct (gtext (m_groups m) "ip4") eqn:X2; [rewrite Wh in I; apply I|].
      destruct (gtext (m_groups m) "ip6") eqn:X3; [rewrite Wh in I; apply I|]. destruct (gtext (m_groups m) "dns") eqn:X4; [rewrite Wh in I; apply I|].
      exfalso. unfold who in Wh. rewrite X1, X2, X3, X4 in Wh. discriminate. }
    rewrite V. now exists (snd (identify (c_raw cfg) (fw_dns w) false fl)). }
  destruct (process_line cfg w (after ops) i) as [[f1 o] t1]. destruct Q as [fl ->]. destruct P as [P _].
  destruct (count_all w (with_ign g f1) t1 _) as [[f2 e2] ok2] eqn:E2. apply count_nothing in E2 as [-> ->]; auto. cbn [negb].
  destruct (_ =? 0); [destruct (perform_svc _ _ _)|]; cbn [snd]; rewrite map_map, P; reflexivity.
Qed.

(** *** with several lines *)
Definition several_lines (cfg : fcfg) : Prop := (1 < c_maxlines cfg)%nat /\ c_pref cfg = None.
(** The lines that the expressions see: those kept and the new one, the last maxlines of them. *)
Definition buffered (ops : list flt_op) (cfg : fcfg) (w : fworld) (i : input) : list line :=
  let '(_, _, l, _) := line_date w (c_operation cfg) (l_text (after ops)) (l_date (after ops)) i in
  let all := l_buf (after ops) ++ [l] in skipn (length all - c_maxlines cfg) all.
Lemma several_quiet ops cfg w i B : buffered ops cfg w i = B ->
  (forall l dated, skipn (length (l_buf (after ops) ++ [l]) - c_maxlines cfg) (l_buf (after ops) ++ [l]) = B ->
     let '(_, s', o) := find_failure cfg w (l_buf (after ops)) (l_sess (after ops)) l dated in s' = l_sess (after ops) /\ o = Failures []) ->
  let f := after ops in let f' := fst (flt_step f (FLine cfg w i)) in
  line_found ops cfg w i = [] /\ l_sess f' = l_sess f /\ l_queue f' = l_queue f /\ (l_fm f' = l_fm f \/ l_fm f' = cleanup (l_fm f) (fw_now w)).
Proof.
  intros S H. cbn zeta. unfold line_found. cbn [flt_step]. unfold line_step. pose proof (process_same cfg w (after ops) i) as P.
  assert (Q : let '(f1, o, _) := process_line cfg w (after ops) i in l_sess f1 = l_sess (after ops) /\ o = Failures []).
  { unfold process_line. unfold buffered in S. destruct (line_date _ _ _ _ _) as [[[lt ld] l] [d|]]; cbn zeta in S.
    - destruct (sane_date _ _ _ _); [|auto]. specialize (H l true S). destruct (find_failure _ _ _ _ _ _) as [[lb s] o]. exact H.
    - specialize (H l false S). destruct (find_failure _ _ _ _ _ _) as [[lb s] o]. exact H. }
  destruct (process_line cfg w (after ops) i) as [[f1 o] t]. destruct Q as [Q ->]. destruct P as (P1 & P2 & _). cbn [count_all negb]. cbn [with_count with_fm l_lines l_fm l_svc l_queue].
  destruct (_ =? 0); cbn [fst snd with_count with_fm l_lines l_fm l_svc l_queue l_sess l_errors]; [|rewrite P1, P2, Q; auto 10].
  unfold perform_svc. destruct (_ >=? _); cbn [fst snd with_count with_fm l_lines l_fm l_svc l_queue l_sess l_errors]; rewrite P1, P2, Q; auto 10.
Qed.
(** If an ignoreregex matches the lines that the first failregex that matches has taken (see C57),
    there is no failure. *)
Theorem C59_several_ignored ops cfg w i pre r post f : several_lines cfg -> let B := buffered ops cfg w i in
  c_fail cfg = pre ++ r :: post -> (forall p, In p pre -> ~ matches p (lines_buf B)) -> search r (lines_buf B) B = Some f ->
  (exists p, In p (c_ignore cfg) /\ matches p (lines_buf (fd_matched f))) ->
  let g := after ops in let g' := fst (flt_step g (FLine cfg w i)) in
  line_found ops cfg w i = [] /\ l_sess g' = l_sess g /\ l_queue g' = l_queue g /\ (l_fm g' = l_fm g \/ l_fm g' = cleanup (l_fm g) (fw_now w)).
Proof.
  intros [S1 S2] B F Np M I. apply several_quiet with (B := B); [reflexivity|]. intros l dated E. unfold find_failure. apply Nat.ltb_lt in S1. rewrite S1. unfold last_lines. rewrite E.
  destruct (_ && _); [auto|]. rewrite S2, F, loop_skip by exact Np. cbn [find_loop]. rewrite M. apply ignore_spec in I. unfold ignore_line. rewrite S1, I. auto.
Qed.
(** If no failregex matches what is buffered there is none either. *)
Theorem C59_several_none ops cfg w i : several_lines cfg -> (forall p, In p (c_fail cfg) -> ~ matches p (lines_buf (buffered ops cfg w i))) ->
  let g := after ops in let g' := fst (flt_step g (FLine cfg w i)) in
  line_found ops cfg w i = [] /\ l_sess g' = l_sess g /\ l_queue g' = l_queue g /\ (l_fm g' = l_fm g \/ l_fm g' = cleanup (l_fm g) (fw_now w)).
Proof.
  intros [S1 S2] N. apply several_quiet with (B := buffered ops cfg w i); [reflexivity|]. intros l dated E. unfold find_failure. apply Nat.ltb_lt in S1. rewrite S1. unfold last_lines. rewrite E.
  destruct (_ && _); [auto|]. rewrite S2, loop_none by exact N. auto.
Qed.
(** Otherwise those are found whom the first failregex that matches names; the lines it has taken go
    from the buffer and come with the failure. *)
Theorem C59_several_found ops cfg w i pre r post f t ids : several_lines cfg -> let B := buffered ops cfg w i in
  c_fail cfg = pre ++ r :: post -> (forall p, In p pre -> ~ matches p (lines_buf B)) -> search r (lines_buf B) B = Some f ->
  (forall p, In p (c_ignore cfg) -> ~ matches p (lines_buf B) /\ ~ matches p (lines_buf (fd_matched f))) ->
  let g := m_groups (fd_match f) in dwf g ->
  no_cache (ignore_calls ops) -> gtext g "mlfid" = None -> who (c_raw cfg) (fw_dns w) (gtext g) = Some ids ->
  line_time (c_operation cfg) (findtime 600 ops) w (last_time ops) i = Some t ->
  line_found (ops ++ ignore_nothing) cfg w i = map (fun ip => (ip, t)) ids /\
  l_buf (after (ops ++ ignore_nothing ++ [FLine cfg w i])) = fd_unmatched f.
Proof.
  intros [S1 S2] B F Np M N g W C Ml Wh T. rewrite app_assoc.
  assert (RS : forall os o x, fst (flt_run x (os ++ [o])) = fst (flt_step (fst (flt_run x os)) o)).
  { induction os as [|o1 os IH]; intros o x; cbn [flt_run app].
    - cbn [fst]. destruct (flt_step x o) as [y e]. reflexivity.
    - destruct (flt_step x o1) as [y e]. specialize (IH o y). destruct (flt_run y (os ++ [o])) as [z es]. destruct (flt_run y os) as [z' es']. exact IH. }
  assert (AF : after ((ops ++ ignore_nothing) ++ [FLine cfg w i]) = fst (flt_step (after (ops ++ ignore_nothing)) (FLine cfg w i))) by apply RS.
  rewrite AF. unfold line_found. destruct (after_nothing ops C) as (gn & -> & G1 & G2 & G3 & G4 & G5). cbn [flt_step]. unfold line_step. rewrite process_ign.
  pose proof (process_time cfg w (after ops) i) as P. destruct (after_date ops) as [D1 D2]. rewrite D1, D2, T in P.
  assert (Q : let '(h, o, _) := process_line cfg w (after ops) i in l_buf h = fd_unmatched f /\ exists fl, o = Failures (map (fun ip => (ip, fl)) ids)).
  { unfold process_line. subst B. unfold buffered in *. pose proof (line_date_spec w (c_operation cfg) (l_text (after ops)) (l_date (after ops)) i) as Ld.
    destruct (line_date _ _ _ _ _) as [[[lt ld] l] dd]. cbn zeta in *. destruct Ld as [-> _]. rewrite D1. unfold line_time in T. destruct (taken_time _ _ _ _) as [d|]; [|discriminate].
    assert (Sd : sane_date (c_operation cfg) (fm_time (l_fm (after ops))) (fw_now w) d <> None).
    { unfold sane_date. destruct (c_operation cfg); [discriminate|]. rewrite D2. destruct (_ <? _); [discriminate|discriminate]. }
    destruct (sane_date _ _ _ _) as [d'|]; [|congruence]. unfold find_failure. apply Nat.ltb_lt in S1. rewrite S1. unfold last_lines.
    set (B := skipn _ _) in *. assert (N1 : ignore_line cfg (lines_buf B) None = false) by (apply no_ignore; intros p J; apply (N p J)).
    rewrite N1, andb_false_r, S2, F, loop_skip by exact Np. cbn [find_loop]. rewrite M. unfold ignore_line. rewrite S1.
    rewrite no_ignore by (intros p J; apply (N p J)). cbn [negb]. fold g. rewrite update_all_nil by exact W.
    unfold take_match. rewrite Ml. set (fl := mkFail g [] (fd_matched f) [] false None). pose proof (identify_spec (c_raw cfg) (fw_dns w) false fl) as I. cbn zeta in I. change (f_groups fl) with g in I.
    assert (V : fst (identify (c_raw cfg) (fw_dns w) false fl) = VFound ids (snd (identify (c_raw cfg) (fw_dns w) false fl))).
    { destruct (gtext g "fid") eqn:X1; [rewrite Wh in I; apply I|]. destruct (gtext g "ip4") eqn:X2; [rewrite Wh in I; apply I|].
      destruct (gtext g "ip6") eqn:X3; [rewrite Wh in I; apply I|]. destruct (gtext g "dns") eqn:X4; [rewrite Wh in I; apply I|].
      exfalso. unfold who in Wh. rewrite X1, X2, X3, X4 in Wh. discriminate. }
    rewrite V. split; [reflexivity|]. now exists (snd (identify (c_raw cfg) (fw_dns w) false fl)). }
  destruct (process_line cfg w (after ops) i) as [[f1 o] t1]. destruct Q as [Q1 [fl ->]]. destruct P as [P _].
  destruct (count_all w (with_ign gn f1) t1 _) as [[f2 e2] ok2] eqn:E2.
  assert (Bf : l_buf f2 = l_buf f1) by apply (count_settings _ _ _ _ _ _ _ E2).
  apply count_nothing in E2 as [-> ->]; auto. cbn [negb].
  destruct (_ =? 0); [destruct (perform_svc _ _ _)|]; cbn [fst snd with_count with_fm l_buf]; rewrite map_map, P, Bf; auto.
Qed.

(** ** C60 *)
(** The buffer holds at most maxlines lines, there are at most 100 sessions, and the filter gives up
    only after at least 100 lines whose processing failed; a line is counted as processed at most
    once. *)
Theorem C60_bounded n ops f evs : (1 <= n)%nat -> max_lines n ops -> flt_run flt_init ops = (f, evs) ->
  (length (l_buf f) <= n)%nat /\ (length (ca_list (l_sess f)) <= 100)%nat /\ 0 <= l_errors f < 100 /\ 0 <= l_lines f <= lines_fed ops /\
  (l_idle f = true -> 100 <= lines_fed ops - l_lines f).
Proof.
  intros N M E. pose proof (run_bounded n ops N 0 flt_init f evs M (init_bounded n) E) as B. rewrite Z.add_0_l in B. destruct B as [B1 [_ B2] B3 B4 B5 B6]. auto 10.
Qed.

(** ** Examples *)
Local Open Scope string_scope.
Local Open Scope list_scope.
Fixpoint starts (s t : text) : bool :=
  match s, t with [], _ => true | a :: s, b :: t => eqb a b && starts s t | _, [] => false end.
Fixpoint has (s t : text) : bool := starts s t || match t with [] => false | _ :: t => has s t end.
Definition gs (l : list (string * string)) : groups := map (fun kv => (fst kv, Some (tx (snd kv)))) l.
(** matches texts in which [s] occurs *)
Definition pat (s : string) (g : list (string * string)) : pattern :=
  fun t => match t with [] => None | _ => if has (tx s) t then Some (mkM 0 (length t) (gs g) []) else None end.
Lemma pat_proper s g : proper (pat s g).
Proof. intros [|c t] m; cbn -[has]; [discriminate|]. destruct (has _ _); [|discriminate]. intros [= <-]. cbn. lia. Qed.
(** a line may start with one digit n: the time 1000 + 10 n *)
Definition detect (t : text) : option (nat * nat * option Z) :=
  match t with c :: _ => match digit_val c with Some d => if is_digit c then Some (O, 1%nat, Some (1000 + 10 * d)) else None | None => None end | [] => None end.
Definition world_at (now : Z) : fworld := mkFW (mkW now [] (fun _ => []) (fun _ => []) (fun _ => Some 1)) detect (fun _ => []) (fun _ _ _ t => t).
Definition cfg0 (oper : bool) : fcfg :=
  mkCfg false 1 None [pat "fail A" [("ip4", "192.0.2.1")]; pat "fail B" [("ip4", "192.0.2.2")]; pat "fail" [("ip4", "192.0.2.3")]] [pat "quiet" []] oper.
Definition fline (oper : bool) (now : Z) (s : string) : flt_op := FLine (cfg0 oper) (world_at now) (ILine (tx s)).
Definition ids (l : list (list (ipaddr * Z))) : list (list (text * Z)) := map (map (fun e => (ntoa (fst e), snd e))) l.
Definition story : list flt_op :=
  [FIgnore (IAdd (tx "192.0.2.3")); fline true 1000 "0 fail A"; fline true 1012 "1 fail B"; fline true 1013 "1 fail A quiet"; fline true 1020 "2 fail"; fline true 1021 "fail A"; fline true 1022 "nothing";
   fline true 1030 "3 fail A"; FAttempt (world_at 1040) (tx "192.0.2.9") ["x"; "y"; "z"]].
Example C58_demo : let '(f, evs) := flt_run flt_init story in
  ids evs = [[]; [(tx "192.0.2.1", 1000)]; [(tx "192.0.2.2", 1010)]; []; []; [(tx "192.0.2.1", 1020)]; []; [(tx "192.0.2.1", 1030)]; [(tx "192.0.2.9", 1040)]] /\
  map t_id (l_queue f) = ["192.0.2.1"; "192.0.2.9"] /\ sane_settings story /\ never_lowered 3 story /\ (forall n, In (FRetry n) story -> 3 <= n) /\
  total "192.0.2.1" (all_found story evs) = 3 /\ total "192.0.2.9" (all_found story evs) = 3.
Proof.
  destruct (flt_run flt_init story) as [f evs] eqn:E. vm_compute in E. injection E as <- <-. split; [vm_compute; reflexivity|]. split; [vm_compute; reflexivity|].
  split; [intros n I; cbn in I; intuition discriminate|]. split; [cbn; auto|]. split; [intros n I; cbn in I; intuition discriminate|]. vm_compute. auto.
Qed.
(** One line names an ignored and another address. *)
Definition two_cfg : fcfg := mkCfg false 1 None [pat "fail" [("dns", "host")]] [] true.
Definition two_world : fworld := mkFW (mkW 1000 [] (fun _ => []) (fun _ => []) (fun _ => Some 1)) detect (fun _ => [ipt (tx "192.0.2.1"); ipt (tx "192.0.2.2")]) (fun _ _ _ t => t).
Example C28_counted_demo : let ops := [FIgnore (IAdd (tx "192.0.2.2"))] in
  no_bracket_file (ignore_calls ops) /\ no_cache (ignore_calls ops) /\ in_force [] (ignore_calls ops) (replies (ignore_calls ops)) [tx "192.0.2.2"] /\ sane_world (fw two_world) /\
  ids [line_found (ops ++ ignore_nothing) two_cfg two_world (ILine (tx "0 fail"))] = [[(tx "192.0.2.1", 1000); (tx "192.0.2.2", 1000)]] /\
  ids [line_found ops two_cfg two_world (ILine (tx "0 fail"))] = [[(tx "192.0.2.1", 1000)]].
Proof.
  split; [intros s [[= <-]|[]] (t & E); discriminate|]. split; [intros c [I|[]]; discriminate|]. split.
  - vm_compute replies. cbn [ignore_calls]. eapply F_cons; [|apply F_nil]. change [tx "192.0.2.2"] with ([] ++ [tx "192.0.2.2"]). apply E_new; [discriminate| |intros t []].
    intros n (k & Lk & E & _). discriminate.
  - split; [split; intros; cbn in *; contradiction|]. vm_compute. auto.
Qed.
(** The lines of a log before the start: old ones are not counted; with a time in the future they are
    counted as now; a line without a time takes that of the line before. *)
Example C29_demo : let ops := [FFind 25] in
  ids (map (fun s => line_found ops (cfg0 false) (world_at 1040) (ILine (tx s))) ["1 fail A"; "2 fail A"; "9 fail A"; "fail A"]) = [[]; [(tx "192.0.2.1", 1020)]; [(tx "192.0.2.1", 1040)]; []] /\
  ids [line_found (ops ++ [fline false 1040 "3 other"]) (cfg0 false) (world_at 1040) (ILine (tx "fail A"))] = [[(tx "192.0.2.1", 1030)]] /\
  taken_time false (world_at 1040) (last_time ops) (ILine (tx "1 fail A")) = Some 1010.
Proof. vm_compute. auto. Qed.
Example C59_demo : let s := searched story (world_at 1100) (ILine (tx "0 fail B")) in
  single_lines (cfg0 true) /\ s = tx " fail B" ++ [nl] /\ (forall p, In p (c_ignore (cfg0 true)) -> ~ matches p s) /\
  c_fail (cfg0 true) = [pat "fail A" [("ip4", "192.0.2.1")]] ++ pat "fail B" [("ip4", "192.0.2.2")] :: [pat "fail" [("ip4", "192.0.2.3")]] /\
  (exists m, pat "fail B" [("ip4", "192.0.2.2")] s = Some m /\ dwf (m_groups m) /\ names_someone (m_groups m) /\ gtext (m_groups m) "mlfid" = None /\
     who false (fw_dns (world_at 1100)) (gtext (m_groups m)) = Some [ipt (tx "192.0.2.2")]) /\
  ~ matches (pat "fail A" [("ip4", "192.0.2.1")]) s /\ matches (pat "quiet" []) (searched story (world_at 1100) (ILine (tx "0 fail quiet"))).
Proof.
  split; [split; cbn; auto|]. split; [vm_compute; reflexivity|]. split; [intros p [<-|[]] M; vm_compute in M; congruence|]. split; [reflexivity|]. split.
  - eexists. split; [vm_compute; reflexivity|]. split; [vm_compute; repeat constructor; intros []|]. split; [exists "ip4", (tx "192.0.2.2"); vm_compute; auto 10|]. vm_compute. auto.
  - split; [intros M; vm_compute in M; congruence|vm_compute; discriminate].
Qed.
Definition multi (n : nat) : fcfg := mkCfg false n None [pat "fail" [("ip4", "192.0.2.1")]] [] true.
Example C60_demo : let ops := map (fun s => FLine (multi 3) (world_at 1000) (ILine (tx s))) ["a"; "b"; "c"; "d"; "e"] in
  max_lines 3 ops /\ map shown (l_buf (after ops)) = [tx "c"; tx "d"; tx "e"] /\ lines_fed ops = 5.
Proof.
  split; [|split; vm_compute; reflexivity]. intros cfg w i I. assert (E : cfg = multi 3) by (cbn in I; intuition congruence). subst cfg.
  split; [cbn; lia|]. split; [constructor; [apply pat_proper|constructor]|discriminate].
Qed.

(** ** What does not hold *)
(** During operation a line older than findtime counts, if it is not older than a minute. *)
Theorem C29_operation_refuted : exists ops cfg w i d, c_operation cfg = true /\ stamp w i = Some d /\ d < fw_now w - findtime 600 ops /\ line_found ops cfg w i <> [].
Proof. exists [FFind 10], (cfg0 true), (world_at 1040), (ILine (tx "0 fail A")), 1000. repeat split; vm_compute; try reflexivity. discriminate. Qed.
(** During operation a line of yesterday counts as a failure of now. *)
Theorem C29_yesterday_refuted : exists ops cfg w i d, c_operation cfg = true /\ stamp w i = Some d /\ d < fw_now w - 86400 /\ exists ip, line_found ops cfg w i = [(ip, fw_now w)].
Proof. exists [], (cfg0 true), (world_at 100000), (ILine (tx "0 fail A")), 1000. repeat split; try (vm_compute; reflexivity). eexists. vm_compute. reflexivity. Qed.
(** Failures reported by a client are counted although the address is ignored. *)
Theorem C28_attempt_refuted : exists ops w id, asked (ignore_calls ops) (fw w) (mkQ (ipt id) (fun t => t)) = Some true /\ snd (flt_step (after ops) (FAttempt w id [])) <> [].
Proof. exists [FIgnore (IAdd (tx "192.0.2.3"))], (world_at 0), (tx "192.0.2.3"). vm_compute. split; [reflexivity|discriminate]. Qed.
(** After a match that names nobody the other failregex get nothing to match: a line that matches the
    second alone is not counted. *)
Theorem C59_nobody_refuted : exists r1 r2 w i, let cfg rs := mkCfg false 1 None rs [] true in
  line_found [] (cfg [r2]) w i <> [] /\ line_found [] (cfg [r2; r1]) w i <> [] /\ line_found [] (cfg [r1; r2]) w i = [].
Proof. exists (pat "fail" []), (pat "fail" [("ip4", "192.0.2.1")]), (world_at 1000), (ILine (tx "0 fail")). vm_compute. repeat split; discriminate. Qed.
(** With several lines: a failure that is ignored by its own lines, one that is found although the
    kept line would be ignored; but if there are three more failregex, the whole buffer is looked at
    first, and the same failure is ignored. *)
Fixpoint at_of (n : nat) (s t : text) : option nat := if starts s t then Some n else match t with [] => None | _ :: t => at_of (S n) s t end.
Definition word (s : string) (g : list (string * string)) : pattern := fun t => option_map (fun n => mkM n (n + length (tx s))%nat (gs g) []) (at_of 0 (tx s) t).
Definition several (rs : list pattern) : fcfg := mkCfg false 3 None rs [word "quiet" []] true.
Example C59_several_demo : let w := world_at 1000 in let r := word "fail" [("ip4", "192.0.2.1")] in let cfg := several [r] in
  let ops := [FLine cfg w (ILine (tx "0 first"))] in let i := ILine (tx "0 fail quiet") in let B := buffered ops cfg w i in
  several_lines cfg /\ (exists f, search r (lines_buf B) B = Some f /\ map shown (fd_matched f) = [tx " fail quiet"] /\ matches (word "quiet" []) (lines_buf (fd_matched f))) /\
  line_found ops cfg w i = [] /\ ids [line_found ops cfg w (ILine (tx "0 fail"))] = [[(tx "192.0.2.1", 1000)]].
Proof. split; [split; [cbn; lia|reflexivity]|]. split; [|vm_compute; auto]. eexists. split; [vm_compute; reflexivity|]. vm_compute. split; [reflexivity|discriminate]. Qed.
Theorem C59_several_refuted : exists r more ops w i, let cfg rs := several rs in let B := buffered ops (cfg [r]) w i in
  (exists f p, search r (lines_buf B) B = Some f /\ c_ignore (cfg [r]) = [p] /\ ~ matches p (lines_buf (fd_matched f))) /\
  line_found ops (cfg [r]) w i <> [] /\ line_found ops (cfg (r :: more)) w i = [].
Proof.
  exists (word "fail" [("ip4", "192.0.2.1")]), [pat "never" []; pat "never" []; pat "never" []], [FLine (several []) (world_at 1000) (ILine (tx "0 quiet"))], (world_at 1000), (ILine (tx "0 fail")).
  split; [|vm_compute; split; [discriminate|reflexivity]]. eexists _, _. split; [vm_compute; reflexivity|]. split; [reflexivity|]. intros M. vm_compute in M. congruence.
Qed.
(** With a prefregex, whether an ignoreregex sees the whole line or only what the prefregex takes as
    content depends on the number of expressions. *)
Fixpoint to_nl (t : text) : text := match t with [] => [] | c :: t => if eqb c nl then [] else c :: to_nl t end.
Fixpoint behind (s t : text) : option text :=
  if starts s t then Some (to_nl (skipn (length s) t)) else match t with [] => None | _ :: t => behind s t end.
Definition pref : pattern := fun t => option_map (fun c => mkM 0 (length t) [("content", Some c)] []) (behind (tx "sshd: ") t).
Theorem C59_prefregex_refuted : exists fails more ign w i, let cfg rs := mkCfg false 1 (Some pref) rs [ign] true in
  matches ign (searched [] w i) /\ line_found [] (cfg fails) w i <> [] /\ line_found [] (cfg (fails ++ more)) w i = [].
Proof.
  exists [pat "fail" [("ip4", "192.0.2.1")]], [pat "never" []; pat "never" []; pat "never" []], (pat "sshd" []), (world_at 1000), (ILine (tx "0 sshd: fail")). vm_compute. repeat split; discriminate.
Qed.
(** With a prefregex and several lines the buffer keeps only the content of the line: a failure that
    spans two lines is not found. *)
Theorem C60_prefregex_refuted : exists r w, let cfg p := mkCfg false 3 p [r] [] true in let ls p := [FLine (cfg p) w (ILine (tx "sshd: one")); FLine (cfg p) w (ILine (tx "sshd: two"))] in
  map shown (l_buf (after (ls None))) = [tx "sshd: one"; tx "sshd: two"] /\ map shown (l_buf (after (ls (Some pref)))) = [tx "two"].
Proof. exists (pat "never" []), (world_at 1000). vm_compute. auto. Qed.

Print Assumptions C58_refinement.
Print Assumptions C58_ban_needs_failures.
Print Assumptions C58_prompt.
Print Assumptions C28_counted.
Print Assumptions C29_time.
Print Assumptions C29_window.
Print Assumptions C29_old.
Print Assumptions C59_ignored.
Print Assumptions C59_none.
Print Assumptions C59_first.
Print Assumptions C59_found.
Print Assumptions C59_several_ignored.
Print Assumptions C59_several_none.
Print Assumptions C59_several_found.
Print Assumptions C59_several_demo.
Print Assumptions C59_several_refuted.
Print Assumptions C60_bounded.
Print Assumptions C58_demo.
Print Assumptions C28_counted_demo.
Print Assumptions C29_demo.
Print Assumptions C59_demo.
Print Assumptions C60_demo.
Print Assumptions C29_operation_refuted.
Print Assumptions C29_yesterday_refuted.
Print Assumptions C28_attempt_refuted.
Print Assumptions C59_nobody_refuted.
Print Assumptions C59_prefregex_refuted.
Print Assumptions C60_prefregex_refuted.
