(** C76-C79: following logs with inotify *)
From Verif Require Import Base Inotify_Model Inotify_Spec Inotify_Proofs Inotify_Proofs2 Inotify_Proofs3 Inotify_Proofs4 Inotify_Proofs5 Inotify_Proofs6 Inotify_Proofs7 Inotify_Proofs8 Inotify_Proofs9.
From Coq Require Import ZifyBool ZifyNat.
Local Open Scope string_scope.
Local Open Scope list_scope.
Local Open Scope Z_scope.

(** ** Demo: a log that is written, rotated, and whose directory is moved away and made anew *)
Definition log : path := ["log"].
Definition auth : path := ["log"; "auth"].
(** The thread goes on until it comes to rest *)
Definition busy : list op := List.concat (List.repeat [Callback; Step; Step; Step; Step; Step; Step] 4).
Definition demo_1 : list op := [MkDir log; Create auth; Write auth; Write auth; AddLog auth; Check 300 301] ++ busy.
Definition demo_2 : list op := demo_1 ++ [MoveAway auth; Create auth; Callback; Write auth; Step; Write auth; Step; Write auth] ++ busy.
Definition demo_3 : list op := demo_2 ++ [MoveDir log] ++ busy ++ [Check 600 601; Check 1100 1101; MkDir log; Create auth; Write auth].
Definition demo_4 : list op := demo_3 ++ [Check 2000 2001; Step; Write auth; Step] ++ busy.
(** [gentle_run] in a form that can be computed *)
Fixpoint gentleb (s : state) (ops : list op) : bool :=
  match ops with
  | [] => true
  | o :: r =>
      match o with
      | MkDir _ | RmDir _ => match todo s with [] => true | _ => false end
      | MoveDir d => match todo s with [] => true | _ => false end && forallb (fun e => negb (under d e)) (dkeys (wdirs (N s)))
      | Rename q _ => negb (inb q (logs (N s)))
      | AddLog p => negb (dmem p (wdirs (N s))) && negb (inb (dirname p) (logs (N s))) && negb (eqb (dirname p) [])
      | SetIdle b => negb b
      | _ => true
      end && gentleb (step s o) r
  end.
Lemma gentleb_ok ops s : gentleb s ops = true -> gentle_run s ops.
Proof.
  revert s. induction ops as [|o r IH]; intros s H; [exact I|]. cbn [gentleb] in H. apply andb_prop in H as [H Hr]. split; [|now apply IH].
  destruct o; cbn [gentle]; try exact I; try (destruct (todo s); [reflexivity | discriminate]).
  - intros Hin. apply negb_true_iff in H. apply inb_In in Hin. congruence.
  - apply andb_prop in H as [H H1]. split; [destruct (todo s); [reflexivity | discriminate]|]. intros e He. rewrite forallb_forall in H1.
    apply negb_true_iff. apply H1. now apply dmem_In.
  - apply andb_prop in H as [H H3]. apply andb_prop in H as [H1 H2]. apply negb_true_iff in H1, H2, H3. split; [exact H1|]. split.
    + intros Hin. apply inb_In in Hin. congruence.
    + intros E. rewrite E in H3. discriminate.
  - now apply negb_true_iff in H.
Qed.
Fixpoint flatb (s : state) (ops : list op) : bool :=
  match ops with
  | [] => true
  | o :: r => match o with
              | AddLog p => forallb (fun a => forallb (fun b => negb (under (dirname a) b) || eqb (dirname b) (dirname a)) (p :: logs (N s))) (p :: logs (N s))
              | _ => true
              end && flatb (step s o) r
  end.
Lemma flatb_ok ops s : flatb s ops = true -> flat_run s ops.
Proof.
  revert s. induction ops as [|o r IH]; intros s H; [exact I|]. cbn [flatb] in H. apply andb_prop in H as [H Hr]. split; [|now apply IH].
  destruct o; try exact I. intros a b Ha Hb Hu. rewrite forallb_forall in H. specialize (H a Ha). rewrite forallb_forall in H. specialize (H b Hb).
  rewrite Hu in H. cbn [negb orb] in H. now destruct (eqb_spec (dirname b) (dirname a)).
Qed.

(** ** C76: nothing is missed *)
(** However the files of a log are written, moved, removed and made anew, and whenever the thread runs: when it has come to rest, and waits
    neither for the log nor for its directory, then all lines of the file that is at the log's path have been read. *)
Theorem C76_followed ops p : gentle_run init ops -> let s := run init ops in
  at_rest s -> a_log s p -> ~ waited_for s p -> ~ waited_for s (dirname p) -> up_to_date s p.
Proof.
  intros Hg s Hr Hp H1 H2. apply followed; auto.
  - apply Inv_run; [apply Inv_init | exact Hg].
  - now apply not_true_is_false.
  - now apply not_true_is_false.
Qed.
(** What is waited for is a log whose file was missing or was just added, or the directory of a log. *)
Theorem C76_waiting ops p : gentle_run init ops -> let s := run init ops in todo s = [] -> waited_for s p ->
  a_log s p \/ dmem p (wdirs (N s)) = true.
Proof.
  intros Hg s Ht Hw. assert (HI : Inv s) by (apply Inv_run; [apply Inv_init | exact Hg]). unfold waited_for, dmem in Hw.
  destruct (dget p (pend (N s))) as [[r b]|] eqn:E; [|discriminate]. destruct (option_eqb_dec b (Some true)) as [->|Nb].
  - right. destruct (ni_pd _ _ (i_n s HI) p r E) as [H|(x & H)]; [exact H | congruence].
  - left. now apply (ni_pf _ _ (i_n s HI) p r b).
Qed.
Example C76_demo : gentle_run init demo_1 /\ gentle_run init demo_2 /\ gentle_run init demo_4
  /\ (let s := run init demo_2 in at_rest s /\ a_log s auth /\ ~ waited_for s auth /\ ~ waited_for s log /\ read_of s auth = Some 3)
  /\ (let s := run init demo_4 in at_rest s /\ a_log s auth /\ ~ waited_for s auth /\ ~ waited_for s log /\ read_of s auth = Some 2).
Proof.
  split; [apply gentleb_ok; vm_compute; reflexivity|]. split; [apply gentleb_ok; vm_compute; reflexivity|]. split; [apply gentleb_ok; vm_compute; reflexivity|].
  unfold waited_for, a_log. vm_compute. repeat split; auto; discriminate.
Qed.

(** Nothing leads to the log any more: no event, no watch, nothing that waits *)
Definition dead (s : state) (p : path) : Prop :=
  queue (K s) = [] /\ todo s = [] /\ pend (N s) = [] /\
  exists i, dget p (files (F s)) = Some i /\ num i (seen (N s)) < num i (sizes (F s)) /\ forall w, In w (watches (K s)) -> w_ino w <> i.
(** What the thread does, and lines that are written to the log *)
Definition daily (p : path) (o : op) : Prop := match o with Check _ _ | Callback | Step => True | Write q => q = p | _ => False end.
Lemma dead_step s p o : dead s p -> daily p o -> dead (step s o) p /\ read_of (step s o) p = read_of s p.
Proof.
  intros (H1 & H2 & H3 & i & H4 & H5 & H6) Ho. destruct o; try contradiction; unfold step.
  - cbn in Ho. subst p0. rewrite H4. assert (E : on i false (K s) = []).
    { unfold on. destruct (filter _ _) as [|w l] eqn:El; [reflexivity|]. exfalso.
      assert (Hw : In w (w :: l)) by now left. rewrite <- El in Hw. apply filter_In in Hw as [Hw Hb]. apply andb_prop in Hb as [Hb _].
      apply (H6 w Hw). lia. }
    rewrite E. cbn [map push]. unfold dead, set_fk, read_of. cbn [F K N todo push queue watches append files]. rewrite app_nil_r. split.
    + split; [exact H1|]. split; [exact H2|]. split; [exact H3|]. exists i. split; [exact H4|]. split; [|exact H6].
      cbn [append sizes]. unfold num in *. rewrite dget_dset_same. lia.
    + reflexivity.
  - rewrite H1, H2. split; [|reflexivity]. split; [exact H1|]. split; [exact H2|]. split; [exact H3|]. exists i. auto.
  - rewrite H2. split; [|reflexivity]. split; [exact H1|]. split; [exact H2|]. split; [exact H3|]. exists i. auto.
  - rewrite H2. assert (D : dead s p) by (split; [exact H1|]; split; [exact H2|]; split; [exact H3|]; exists i; auto). destruct (idle (N s)); [auto|].
    unfold check_pending. rewrite H3. split; [|reflexivity]. destruct s as [f k n t]. cbn [F K N todo] in *. subst t. exact D.
Qed.
Lemma dead_run ops s p : dead s p -> Forall (daily p) ops -> ~ up_to_date (run s ops) p.
Proof.
  revert s. induction ops as [|o r IH]; intros s H Ho.
  - destruct H as (_ & _ & _ & i & H4 & H5 & _). unfold up_to_date, read_of, lines_of. cbn [run fold_left]. rewrite H4. intros [= E]. lia.
  - inversion Ho; subst. apply IH; [|assumption]. now apply dead_step.
Qed.
Definition deadb (s : state) (p : path) : bool :=
  match queue (K s), todo s, pend (N s) with
  | [], [], [] => match dget p (files (F s)) with
                  | Some i => (num i (seen (N s)) <? num i (sizes (F s))) && forallb (fun w => negb (w_ino w =? i)) (watches (K s))
                  | None => false
                  end
  | _, _, _ => false
  end.
Lemma deadb_ok s p : deadb s p = true -> dead s p.
Proof.
  unfold deadb, dead. destruct (queue (K s)); [|discriminate]. destruct (todo s); [|discriminate]. destruct (pend (N s)); [|discriminate].
  destruct (dget p (files (F s))) as [i|]; [|discriminate]. intros H. apply andb_prop in H as [H1 H2]. repeat split; auto. exists i. split; [reflexivity|].
  split; [lia|]. intros w Hw E. rewrite forallb_forall in H2. specialize (H2 w Hw). lia.
Qed.

(** Finding: the directory of a log is removed, made anew, found, and moved away again just before its new watch is set (filterpyinotify.py:205-210,
    247-248). Adding the watch fails, which is not noticed, so the directory is neither watched nor waited for. When it is there again, with the
    log, then the log is found, but after its next rotation nothing leads to it, and nothing is read. *)
Definition race : list op :=
  demo_1 ++ [Remove auth; RmDir log] ++ busy ++ [MkDir log; Check 1100 1101; Step; Step; MoveDir log] ++ busy ++ [MkDir log; Create auth; Write auth; Check 3000 3001] ++ busy
  ++ [MoveAway auth; Create auth; Write auth] ++ busy.
Theorem C76_race_refuted : exists ops p, let s := run init ops in a_log s p /\ isdir (F s) (dirname p) = true
  /\ forall more, Forall (daily p) more -> ~ up_to_date (run s more) p.
Proof.
  exists race, auth. cbv zeta. split; [vm_compute; auto|]. split; [vm_compute; reflexivity|]. intros more. apply dead_run. apply deadb_ok. vm_compute. reflexivity.
Qed.
(** Finding: only the directory of a log is watched, not those above it. If one of those is moved and made anew, with all that is in it, then
    no event tells so, and the lines of the new file are not read. *)
Definition above : list op :=
  [MkDir ["a"]; MkDir ["a"; "b"]; Create ["a"; "b"; "x"]; AddLog ["a"; "b"; "x"]; Check 300 301] ++ busy
  ++ [MoveDir ["a"]] ++ busy ++ [MkDir ["a"]; MkDir ["a"; "b"]; Create ["a"; "b"; "x"]; Write ["a"; "b"; "x"]] ++ busy.
Theorem C76_above_refuted : exists ops p, let s := run init ops in a_log s p /\ forall more, Forall (daily p) more -> ~ up_to_date (run s more) p.
Proof. exists above, ["a"; "b"; "x"]. cbv zeta. split; [vm_compute; auto|]. intros more. apply dead_run. apply deadb_ok. vm_compute. reflexivity. Qed.
(** Finding: if the file of one log is renamed to the path of another log of the same jail, as by rotation with both names matching logpath, then
    inotify gives both paths the same watch; when the first path gets a new file, that watch is removed, and the second path is no
    longer watched. *)
Definition both : list op :=
  [MkDir log; Create auth; Create ["log"; "auth.1"]; AddLog auth; AddLog ["log"; "auth.1"]; Check 300 301] ++ busy
  ++ [Rename auth ["log"; "auth.1"]] ++ busy ++ [Create auth] ++ busy ++ [Write ["log"; "auth.1"]] ++ busy.
Theorem C76_renamed_refuted : exists ops p, let s := run init ops in a_log s p /\ forall more, Forall (daily p) more -> ~ up_to_date (run s more) p.
Proof. exists both, ["log"; "auth.1"]. cbv zeta. split; [vm_compute; auto|]. intros more. apply dead_run. apply deadb_ok. vm_compute. reflexivity. Qed.
(** Finding: the path of a directory with a slash appended is compared with the paths of the logs (filterpyinotify.py:287), which gives two slashes
    for the root directory. Of two logs in the root directory, removing one ends the watching of the directory for the other, and
    after a rotation nothing is read. *)
Definition in_root : list op :=
  [Create ["x"]; Create ["y"]; AddLog ["x"]; AddLog ["y"]; Check 300 301] ++ busy
  ++ [DelLog ["x"]] ++ busy ++ [MoveAway ["y"]; Create ["y"]; Write ["y"]] ++ busy.
Theorem C76_root_refuted : exists ops p, let s := run init ops in a_log s p /\ forall more, Forall (daily p) more -> ~ up_to_date (run s more) p.
Proof. exists in_root, ["y"]. cbv zeta. split; [vm_compute; auto|]. intros more. apply dead_run. apply deadb_ok. vm_compute. reflexivity. Qed.

(** ** C77: the thread catches up *)
(** From any state that can be reached, if nothing else happens: the thread comes to rest; a check, at a time when all that is waited for is
    looked at, and what follows from it, lead to a state in which every log has been read to its end. The logs are the same. *)
Theorem C77_catches_up ops t t' : gentle_run init ops -> let s := run init ops in all_due s t ->
  exists n m, let s1 := goes_on n s in let s2 := goes_on m (step s1 (Check t t')) in
  at_rest s1 /\ at_rest s2 /\ F s2 = F s /\ logs (N s2) = logs (N s) /\ forall p, a_log s p -> up_to_date s2 p.
Proof.
  intros Hg s (H1 & H2 & H3). assert (HI : Inv s) by (apply Inv_run; [apply Inv_init | exact Hg]).
  destruct (catches_up s t t' HI H1) as (n & m & A1 & A2 & _ & A3 & A4 & A5).
  - split; [|split; [exact H2 | apply (ni_pwf _ _ (i_n s HI))]]. intros p r b E. apply (H3 p r). now exists b.
  - exists n, m. auto.
Qed.
(** It always comes to rest by itself, and has not changed the logs or the files then. *)
Theorem C77_rests ops : gentle_run init ops -> let s := run init ops in
  exists n, at_rest (goes_on n s) /\ F (goes_on n s) = F s /\ logs (N (goes_on n s)) = logs (N s).
Proof.
  intros Hg s. assert (HI : Inv s) by (apply Inv_run; [apply Inv_init | exact Hg]).
  destruct (comes_to_rest (fun _ => True) (fun _ _ _ _ => I) s HI I) as (n & A1 & _ & _ & A2 & A3 & _). exists n. auto.
Qed.
(** After 102.4 seconds without a check, all that is waited for is due. *)
Theorem C77_due ops t : let s := run init ops in chk_time (N s) + 102400 <= t -> all_due s t.
Proof.
  intros s H. destruct (Times_run ops init Times_init) as (T1 & T2 & _). fold s in T1, T2. split; [lia|]. split; [lia|].
  intros p r (b & E). pose proof (wait_max _ (T1 _ _ _ E)). lia.
Qed.
Lemma demo_3_pend : pend (N (run init demo_3)) = [(log, (800, Some true))].
Proof. vm_compute. reflexivity. Qed.
Example C77_demo : gentle_run init demo_3 /\ all_due (run init demo_3) 2000 /\ waits (run init demo_3) log 800 /\ read_of (run init demo_3) auth = Some 0
  /\ lines_of (run init demo_3) auth = Some 1.
Proof.
  split; [apply gentleb_ok; vm_compute; reflexivity|]. split.
  - split; [vm_compute; discriminate|]. split; [vm_compute; discriminate|]. intros p r (b & H). rewrite demo_3_pend in H. apply dget_In in H. destruct H as [H|[]].
    injection H as <- <- <-. vm_compute. discriminate.
  - split; [exists (Some true); vm_compute; reflexivity|]. vm_compute. auto.
Qed.
(** Finding: an event that comes while the jail is idle is dropped (filterpyinotify.py:134). When the jail is no longer idle, the lines written
    in between are not read, nothing waits for them, and no check finds them; the thread is at rest until the log is written again. *)
Definition slept : list op := demo_1 ++ [SetIdle true; Write auth] ++ busy ++ [SetIdle false].
Theorem C77_idle_refuted : exists ops p, let s := run init ops in at_rest s /\ idle (N s) = false /\ a_log s p /\ ~ waited_for s p
  /\ ~ waited_for s (dirname p) /\ forall more, Forall (fun o => match o with Check _ _ | Callback | Step => True | _ => False end) more -> ~ up_to_date (run s more) p.
Proof.
  exists slept, auth. cbv zeta. split; [vm_compute; auto|]. split; [reflexivity|]. split; [vm_compute; auto|]. split; [vm_compute; discriminate|]. split; [vm_compute; discriminate|].
  intros more Hm. assert (E : run (run init slept) more = run init slept).
  { induction Hm as [|o r Ho _ IH]; [reflexivity|]. change (run (run init slept) (o :: r)) with (run (step (run init slept) o) r).
    replace (step (run init slept) o) with (run init slept); [exact IH|]. destruct o; try contradiction; vm_compute; reflexivity. }
  rewrite E. vm_compute. discriminate.
Qed.

(** ** C78: how often is looked for what is missing *)
(** The times to wait are 200 ms, doubled at most nine times; a check is due after a minute at most. *)
Theorem C78_waits ops p r : let s := run init ops in waits s p r -> exists k, 0 <= k <= 9 /\ r = 200 * 2 ^ k.
Proof. intros s (b & E). destruct (Times_run ops init Times_init) as (T1 & _). exact (T1 _ _ _ E). Qed.
Theorem C78_minute ops : min_time (N (run init ops)) <= 60000.
Proof. apply (Times_run ops init Times_init). Qed.

Lemma fold_min_spec l a : fold_left Z.min l a <= a /\ (forall x, In x l -> fold_left Z.min l a <= x) /\ (fold_left Z.min l a = a \/ In (fold_left Z.min l a) l).
Proof.
  revert a. induction l as [|x l IH]; intros a; cbn [fold_left]; [split; [lia|]; split; [intros ? [] | auto]|].
  destruct (IH (Z.min a x)) as (H1 & H2 & H3). split; [lia|]. split.
  - intros y [<-|Hy]; [lia | now apply H2].
  - destruct H3 as [H3|H3]; [|right; now right]. rewrite H3. destruct (Z.min_spec a x) as [[_ ->]|[_ ->]]; [now left | right; now left].
Qed.
(** A check before its time does nothing. Otherwise each path that is waited for is looked at if its time to wait has passed since the last
    check; if it is there, it goes on; if it is not, its time is doubled, once it is over a minute no more. The next check is due after the smallest of the times to
    wait, and after a minute at most. Nothing else changes. *)
Theorem C78_check ops t t' : let s := run init ops in todo s = [] -> idle (N s) = false -> let s' := step s (Check t t') in
  F s' = F s /\ K s' = K s /\ logs (N s') = logs (N s) /\ seen (N s') = seen (N s)
  /\ (forall p, waited_for s' p <-> waited_for s p)
  /\ (forall m, In m (todo s') -> exists p b, m = Found p b /\ waited_for s p)
  /\ (t < chk_time (N s) + min_time (N s) -> s' = s)
  /\ (chk_time (N s) + min_time (N s) <= t -> forall p r b, dget p (pend (N s)) = Some (r, b) ->
        if (r <=? t - chk_time (N s)) && is_there s p b then In (Found p b) (todo s') /\ waits s' p r
        else ~ In (Found p b) (todo s') /\
             waits s' p (if (r <=? t - chk_time (N s)) && (r <? 60000) then 2 * r else r) /\
             min_time (N s') <= (if (r <=? t - chk_time (N s)) && (r <? 60000) then 2 * r else r))
  /\ (chk_time (N s) + min_time (N s) <= t -> pend (N s) <> [] -> chk_time (N s') = t' /\
        (min_time (N s') = 60000 \/ exists p, waits s' p (min_time (N s')) /\ forall b, ~ In (Found p b) (todo s'))).
Proof.
  intros s Ht Hi. destruct (Times_run ops init Times_init) as (T1 & T2 & T3). fold s in T1, T2, T3. cbv zeta.
  assert (E : step s (Check t t') = mkS (F s) (K s) (fst (check_pending t t' (F s) (N s))) (snd (check_pending t t' (F s) (N s)))).
  { unfold step. rewrite Ht, Hi. destruct (check_pending t t' (F s) (N s)). reflexivity. }
  rewrite E. cbn [F K N todo]. unfold waits, waited_for. cbn [N].
  destruct (pend (N s)) as [|x0 l0] eqn:El.
  { assert (Ec : check_pending t t' (F s) (N s) = (N s, [])) by (unfold check_pending; rewrite El; reflexivity). rewrite Ec. cbn [fst snd].
    assert (Es : mkS (F s) (K s) (N s) [] = s) by (rewrite <- Ht; now destruct s).
    repeat (split; [reflexivity|]). rewrite El. split; [tauto|]. split; [intros m []|]. split; [intros _; exact Es|]. split; [intros _ p r b C; discriminate|].
    intros _ C. now destruct C. }
  destruct (Z.ltb_spec t (chk_time (N s) + min_time (N s))) as [L|L].
  { assert (Ec : check_pending t t' (F s) (N s) = (N s, [])).
    { unfold check_pending. rewrite El. destruct (Z.ltb_spec t (chk_time (N s) + min_time (N s))); [reflexivity | lia]. }
    rewrite Ec. cbn [fst snd]. assert (Es : mkS (F s) (K s) (N s) [] = s) by (rewrite <- Ht; now destruct s).
    repeat (split; [reflexivity|]). rewrite El. split; [tauto|]. split; [intros m []|]. split; [intros _; exact Es|]. split; [lia | lia]. }
  rewrite <- El in *. assert (Hne : pend (N s) <> []) by (rewrite El; discriminate). clear El x0 l0.
  pose proof (fun p r b => check_spec t t' (F s) (N s) T3 L p r b) as Hs. pose proof (fun p => check_none t t' (F s) (N s) p T3) as Hn. cbv zeta in Hs.
  assert (Hall : let out := check_pending t t' (F s) (N s) in logs (fst out) = logs (N s) /\ seen (fst out) = seen (N s) /\ chk_time (fst out) = t' /\
    min_time (fst out) = fold_left Z.min (map (fun x => fst (look t (chk_time (N s)) (F s) (fst (snd x)) (snd (snd x)) (fst x)))
      (filter (fun x => negb (snd (look t (chk_time (N s)) (F s) (fst (snd x)) (snd (snd x)) (fst x)))) (pend (N s)))) 60000 /\
    forall m, In m (snd out) -> exists p b, m = Found p b).
  { unfold check_pending. destruct (pend (N s)) as [|x0 l0] eqn:El; [congruence|]. rewrite <- El.
    destruct (Z.ltb_spec t (chk_time (N s) + min_time (N s))); [lia|]. cbn [fst snd set_times set_pend logs seen chk_time min_time].
    repeat (split; [reflexivity|]). intros m Hm. apply in_map_iff in Hm as (x & <- & _). eauto. }
  cbv zeta in Hall. destruct Hall as (G1 & G2 & G3 & G4 & G5). set (out := check_pending t t' (F s) (N s)) in *.
  destruct (fold_min_spec (map (fun x => fst (look t (chk_time (N s)) (F s) (fst (snd x)) (snd (snd x)) (fst x)))
      (filter (fun x => negb (snd (look t (chk_time (N s)) (F s) (fst (snd x)) (snd (snd x)) (fst x)))) (pend (N s)))) 60000) as (M1 & M2 & M3).
  rewrite <- G4 in M1, M2, M3.
  split; [reflexivity|]. split; [reflexivity|]. split; [exact G1|]. split; [exact G2|]. split; [|split; [|split; [lia|split]]].
  - intros p. unfold dmem. destruct (dget p (pend (N s))) as [[r b]|] eqn:Ep.
    + destruct (Hs _ _ _ Ep) as [-> _]. tauto.
    + destruct (Hn _ Ep) as [-> _]. tauto.
  - intros m Hm. destruct (G5 m Hm) as (p & b & ->). exists p, b. split; [reflexivity|]. unfold dmem. destruct (dget p (pend (N s))) eqn:Ep; [reflexivity|].
    destruct (Hn _ Ep) as [_ Hc]. now destruct (Hc b).
  - intros _ p r b Ep. destruct (Hs _ _ _ Ep) as [A1 A2].
    assert (Hl : snd (look t (chk_time (N s)) (F s) r b p) = false -> min_time (fst out) <= fst (look t (chk_time (N s)) (F s) r b p)).
    { intros El. apply M2. apply in_map_iff. exists (p, (r, b)). split; [reflexivity|]. apply filter_In. split; [now apply dget_In|]. cbn [fst snd]. now rewrite El. }
    unfold look in *. unfold is_there. destruct (Z.ltb_spec (t - chk_time (N s)) r), (Z.leb_spec r (t - chk_time (N s))); try lia; cbn [andb fst snd] in *.
    + split; [intros C; apply A2 in C; discriminate|]. split; [eauto | auto].
    + destruct (match b with Some true => _ | _ => _ end); cbn [fst snd] in *.
      * split; [now apply A2 | eauto].
      * split; [intros C; apply A2 in C; discriminate|]. split; [eauto | auto].
  - intros _ _. split; [exact G3|]. destruct M3 as [M3|M3]; [now left|]. right. apply in_map_iff in M3 as ([p [r b]] & E1 & E2). cbn [fst snd] in *.
    apply filter_In in E2 as [E2 E3]. cbn [fst snd] in E3. apply In_dget in E2; [|exact T3]. exists p. destruct (Hs _ _ _ E2) as [A1 A2]. rewrite <- E1. split; [eauto|].
    intros c Hc. assert (c = b).
    { revert Hc. unfold out, check_pending. destruct (pend (N s)) as [|x0 l0] eqn:El; [congruence|]. rewrite <- El. destruct (_ <? _); [intros []|]. cbn [snd].
      intros Hc. apply in_map_iff in Hc as ([q [r' b']] & E9 & Hin). apply filter_In in Hin as [Hin _]. cbn [fst snd] in E9. injection E9 as -> ->.
      rewrite El in Hin. apply In_dget in Hin; [|exact T3]. congruence. }
    subst c. apply A2 in Hc. rewrite Hc in E3. discriminate.
Qed.
Example C78_demo : let s := run init demo_3 in todo s = [] /\ idle (N s) = false /\ chk_time (N s) + min_time (N s) <= 2000 /\ dget log (pend (N s)) = Some (800, Some true)
  /\ is_there s log (Some true) = true /\ todo (step s (Check 2000 2001)) = [Found log (Some true)].
Proof. vm_compute. repeat split; auto; discriminate. Qed.

(** The waiting times of [n] that [m] keeps *)
Definition grows (n m : filt) : Prop :=
  (forall p x, dget p (pend n) = Some x -> dget p (pend m) = Some x \/ dget p (pend m) = None)
  /\ (forall p x, dget p (pend n) = None -> dget p (pend m) = Some x -> fst x = 200 /\ min_time m = 0)
  /\ (min_time m = min_time n \/ min_time m = 0).
Lemma grows_same n m : pend m = pend n -> min_time m = min_time n -> grows n m.
Proof. intros E1 E2. unfold grows. rewrite E1, E2. split; [auto|]. split; [congruence | auto]. Qed.
Lemma grows_add p b n : grows n (add_pending p b n).
Proof.
  unfold add_pending. destruct (dmem p (pend n)) eqn:E; [now apply grows_same|]. unfold grows. cbn [set_times set_pend pend min_time]. split; [|split; [|auto]].
  - intros q x Hq. left. rewrite dget_dset. destruct (eqb_spec q p) as [->|]; [|exact Hq]. unfold dmem in E. rewrite Hq in E. discriminate.
  - intros q x Hq. rewrite dget_dset. destruct (eqb q p); [|congruence]. intros [= <-]. auto.
Qed.
Lemma grows_fold (g : path -> bool) l n : grows n (fold_left (fun m d => if g d then add_pending d (Some true) m else m) l n).
Proof.
  assert (H : forall m, grows n m -> (forall p x, dget p (pend n) = Some x -> dget p (pend m) = Some x) ->
    grows n (fold_left (fun m d => if g d then add_pending d (Some true) m else m) l m)).
  { induction l as [|d l IH]; intros m Hm Hk; [exact Hm|]. cbn [fold_left]. destruct (g d); [|now apply IH]. apply IH.
    - destruct Hm as (_ & M2 & M3). destruct (grows_add d (Some true) m) as (A1 & A2 & A3). split; [|split].
      + intros p x Hp. destruct (A1 p x (Hk p x Hp)); auto.
      + intros p x Hp Hx. destruct (dget p (pend m)) as [y|] eqn:Em; [|now apply (A2 p x)]. destruct (A1 p y Em) as [A|A]; [|congruence].
        assert (x = y) by congruence. subst y. destruct (M2 p x Hp Em) as [M4 M5]. split; [exact M4|]. destruct A3 as [A3|A3]; congruence.
      + destruct A3 as [A3|A3]; [|auto]. rewrite A3. exact M3.
    - intros p x Hp. rewrite add_pending_get. destruct (dmem d (pend m)) eqn:Ed; [now apply Hk|]. destruct (eqb_spec p d) as [->|]; [|now apply Hk].
      unfold dmem in Ed. rewrite (Hk _ _ Hp) in Ed. discriminate. }
  apply H; [now apply grows_same | auto].
Qed.
Lemma grows_callback e f n : grows n (fst (callback e f n)).
Proof.
  unfold callback. destruct e as [p|p|p|p|p]; cbn [fst]; try now apply grows_same.
  - destruct (negb (dmem p (wdirs n)) && dmem p (wfiles n)); now apply grows_same.
  - destruct (dmem p (wdirs n) && (false || negb (isdir f p))); [apply grows_add|].
    destruct (negb (dmem p (wdirs n)) && dmem p (wfiles n)); [now apply grows_same | apply grows_fold].
  - destruct (dmem p (wdirs n) && (true || negb (isdir f p))); [apply grows_add|].
    destruct (negb (dmem p (wdirs n)) && dmem p (wfiles n)); [now apply grows_same | apply grows_fold].
Qed.

(** What begins to be waited for is to be looked at after 200 ms, and the next check is due at once. *)
Theorem C78_new ops o p r : let s := run init ops in ~ waited_for s p -> waits (step s o) p r -> r = 200 /\ min_time (N (step s o)) = 0.
Proof.
  intros s Hn (b & Hw). unfold waited_for, dmem in Hn. destruct (dget p (pend (N s))) eqn:Ep; [now destruct Hn|]. clear Hn.
  destruct (Times_run ops init Times_init) as (_ & _ & Hwf). fold s in Hwf.
  assert (G : forall m, grows (N s) m -> dget p (pend m) = Some (r, b) -> r = 200 /\ min_time m = 0) by (intros m (_ & H & _) E; exact (H p (r, b) Ep E)).
  assert (Same : forall m, pend m = pend (N s) -> dget p (pend m) = Some (r, b) -> r = 200 /\ min_time m = 0) by (intros m E H; congruence).
  revert Hw. unfold step. destruct o as [q|i|q|q c|q' q|q|q|d|d|d|e| | |now later|q|q|b'].
  - destruct (dget q (files (F s))); now apply Same.
  - now apply Same.
  - destruct (room (F s) q && negb (isfile (F s) q)); now apply Same.
  - destruct (room (F s) q); now apply Same.
  - destruct (dget q' (files (F s))); [|now apply Same]. destruct (room (F s) q && negb (eqb q' q)); now apply Same.
  - destruct (isfile (F s) q); now apply Same.
  - destruct (isfile (F s) q); now apply Same.
  - destruct (room (F s) d && negb (isfile (F s) d)); now apply Same.
  - destruct (dget d (dirs (F s))); [|now apply Same]. destruct (_ || _); now apply Same.
  - destruct (dget d (dirs (F s))); [|now apply Same]. destruct (eqb d []); now apply Same.
  - now apply Same.
  - destruct (todo s); [|now apply Same]. destruct (queue (K s)) as [|e q]; [now apply Same|]. pose proof (grows_callback e (F s) (N s)) as H.
    destruct (callback e (F s) (N s)). now apply G.
  - destruct (todo s) as [|m t]; [now apply Same|]. unfold micro_step. destruct m as [q c|q c|d|d|q|q|q c|d|q].
    + pose proof (pend_del_file q (K s) (N s)) as [E _]. destruct (del_file_watcher q (K s, N s)). now apply Same.
    + pose proof (pend_add_file q (F s) (K s) (N s)) as [E _]. destruct (add_file_watcher q (F s) (K s, N s)). now apply Same.
    + pose proof (pend_del_dir d (K s) (N s)) as [E _]. destruct (del_dir_watcher d (K s, N s)). now apply Same.
    + pose proof (pend_add_dir d (F s) (K s) (N s)) as [E _]. destruct (add_dir_watcher d (F s) (K s, N s)). now apply Same.
    + destruct (isfile (F s) q); [now apply Same | apply G, grows_add].
    + apply Same. apply pend_process.
    + cbn [N del_pending set_pend pend]. rewrite dget_ddel by exact Hwf. destruct (eqb p q); [discriminate | congruence].
    + now apply Same.
    + destruct (isfile (F s) q); [now apply Same | apply G, grows_add].
  - destruct (todo s); [|now apply Same]. destruct (idle (N s)); [now apply Same|]. destruct (check_none now later (F s) (N s) p Hwf Ep) as [E _].
    destruct (check_pending now later (F s) (N s)). cbn [fst N] in *. congruence.
  - destruct (todo s); [|now apply Same]. unfold add_log. destruct (inb q (logs (N s)) || negb (isfile (F s) q)); [now apply Same|].
    pose proof (pend_add_file q (F s) (K s) (set_logs (logs (N s) ++ [q]) (N s))) as [E _].
    destruct (add_file_watcher q (F s) (K s, set_logs (logs (N s) ++ [q]) (N s))) as [k n]. cbn [fst snd N] in *.
    unfold add_pending. cbn [set_times pend chk_time set_pend min_time]. rewrite E. cbn [set_logs pend]. destruct (dmem q (pend (N s))); cbn [pend set_times set_pend min_time].
    + rewrite E. cbn [set_logs pend]. congruence.
    + rewrite dget_dset. destruct (eqb p q); [|congruence]. intros [= <- <-]. auto.
  - destruct (todo s); [|now apply Same]. unfold del_log. destruct (inb q (logs (N s))); [|now apply Same].
    set (n0 := del_pending q _). assert (H0 : dget p (pend n0) = None) by (unfold n0; cbn [del_pending set_pend set_logs pend]; rewrite dget_ddel by exact Hwf; destruct (eqb p q); auto).
    pose proof (pend_del_file q (K s) n0) as [E1 _]. destruct (del_file_watcher q (K s, n0)) as [k n]. cbn [snd] in E1.
    destruct (existsb _ _); cbn [N]; [congruence|]. pose proof (pend_del_dir (dirname q) k (del_pending (dirname q) n)) as [E3 _].
    destruct (del_dir_watcher (dirname q) (k, del_pending (dirname q) n)) as [k1 n1]. cbn [snd N] in *. rewrite E3. cbn [del_pending set_pend pend]. rewrite E1.
    rewrite dget_ddel by (unfold n0; now apply dwf_ddel). destruct (eqb p (dirname q)); congruence.
  - now apply Same.
Qed.
Example C78_new_demo : let s := run init demo_2 in ~ waited_for s log /\ let s' := run s ([MoveDir log] ++ [Callback]) in waits s' log 200 /\ min_time (N s') = 0.
Proof. split; [vm_compute; discriminate|]. split; [exists (Some true); vm_compute; reflexivity | reflexivity]. Qed.

(** Finding: the time to wait is doubled while it is below a minute, so that 51.2 s become 102.4 s; but a check is made every minute at least, a
    path is looked at only if its time to wait has passed since the last check, and every check counts as the last one, also for
    paths it did not look at (filterpyinotify.py:164-180). So a directory that was missing for 102.2 s is never looked for again, as long as the
    thread looks after its work at least every 21 s - it does so every second. The directory is there again, the log is written: nothing is read. *)
Definition lost : list op :=
  demo_1 ++ [MoveDir log] ++ busy ++ [Check 600 600; Check 1100 1100; Check 2000 2000; Check 3700 3700; Check 7000 7000; Check 14000 14000; Check 27000 27000;
    Check 53000 53000; Check 105000 105000; MkDir log; Create auth; Write auth].
Definition lost_state (sz : Z) (chk : Z) : state :=
  mkS (mkFS [(auth, 4)] [([], 0); (log, 3)] [(2, 2); (4, sz)] 5)
      (mkK [mkW 1 1 log true; mkW 2 2 auth false] 3 [])
      (mkN [auth] [(auth, 2)] [(log, 1)] [(log, (102400, Some true))] chk 60000 [(2, 2)] false) [].
Lemma lost_is : run init lost = lost_state 1 105000.
Proof. vm_compute. reflexivity. Qed.
Lemma lost_check sz chk now later : now - chk < 102400 ->
  step (lost_state sz chk) (Check now later) = lost_state sz chk /\ now < chk + 60000 \/ step (lost_state sz chk) (Check now later) = lost_state sz later.
Proof.
  intros H. destruct (Z.ltb_spec now (chk + 60000)) as [L|L].
  - left. split; [|exact L]. unfold step, lost_state. cbn [todo idle N check_pending pend chk_time min_time F K]. destruct (Z.ltb_spec now (chk + 60000)); [reflexivity | lia].
  - right. unfold step, lost_state. cbn [todo idle N check_pending pend chk_time min_time F K].
    destruct (Z.ltb_spec now (chk + 60000)); [lia|]. assert (E : (now - chk <? 102400) = true) by lia.
    unfold look. cbn [map filter fst snd]. rewrite !E. cbn [negb fst snd filter map fold_left]. rewrite !E. reflexivity.
Qed.
Lemma lost_run more : forall sz chk last, 1 <= sz -> last < chk + 81000 -> steady last more -> Forall (daily auth) more ->
  exists sz' chk', run (lost_state sz chk) more = lost_state sz' chk' /\ 1 <= sz'.
Proof.
  induction more as [|o r IH]; intros sz chk last Hs Hl Hst Hd; [exists sz, chk; auto|]. inversion Hd as [|? ? Ho Hr]; subst.
  change (run (lost_state sz chk) (o :: r)) with (run (step (lost_state sz chk) o) r). destruct o; try contradiction.
  - cbn in Ho. subst p. change (step (lost_state sz chk) (Write auth)) with (lost_state (sz + 1) chk). apply (IH _ _ last); auto. lia.
  - apply (IH sz chk last); auto.
  - apply (IH sz chk last); auto.
  - destruct Hst as (S1 & S2 & S3). destruct (lost_check sz chk now later) as [[-> L]| ->]; [lia| |].
    + apply (IH sz chk later); auto. lia.
    + apply (IH sz later later); auto. lia.
Qed.
Theorem C78_starved_refuted : exists ops p last, gentle_run init ops /\ let s := run init ops in at_rest s /\ a_log s p /\ chk_time (N s) = last /\ isdir (F s) (dirname p) = true
  /\ lines_of s p = Some 1
  /\ forall more, steady last more -> Forall (daily p) more -> read_of (run s more) p = Some 0 /\ ~ up_to_date (run s more) p.
Proof.
  exists lost, auth, 105000. split; [apply gentleb_ok; vm_compute; reflexivity|]. cbv zeta. rewrite lost_is. split; [split; reflexivity|]. split; [now left|]. split; [reflexivity|].
  split; [reflexivity|]. split; [reflexivity|]. intros more Hs Hd. destruct (lost_run more 1 105000 105000 ltac:(lia) ltac:(lia) Hs Hd) as (sz & chk & -> & Hz).
  split; [reflexivity|]. unfold up_to_date. change (read_of (lost_state sz chk) auth) with (Some 0). change (lines_of (lost_state sz chk) auth) with (Some sz).
  intros [= E]. lia.
Qed.
Example C78_starved_demo : let more := List.concat (List.repeat [Write auth; Callback; Step] 3) ++ [Check 106000 106001; Check 120000 120000; Check 140000 140010; Check 160000 160000; Check 180000 180001] in
  steady 105000 more /\ Forall (daily auth) more /\ chk_time (N (run (run init lost) more)) = 180001.
Proof. split; [cbn; lia|]. split; [repeat constructor | vm_compute; reflexivity]. Qed.

(** ** C79: which files are watched, and logs that are removed *)
(** Every file that is watched is that of a log; there is one watch for it. *)
Theorem C79_files ops w : gentle_run init ops -> let s := run init ops in In w (watches (K s)) -> w_dir w = false ->
  a_log s (w_path w) /\ forall v, In v (watches (K s)) -> w_dir v = false -> w_path v = w_path w -> v = w.
Proof.
  intros Hg s Hw Hd. assert (HI : Inv s) by (apply Inv_run; [apply Inv_init | exact Hg]).
  destruct (ki_f _ _ _ _ (i_k s HI) w Hw Hd) as (_ & _ & E). split.
  - apply (ni_wl _ _ (i_n s HI)). unfold dmem. now rewrite E.
  - intros v Hv Hdv Ep. destruct (ki_f _ _ _ _ (i_k s HI) v Hv Hdv) as (_ & _ & E'). rewrite Ep, E in E'. injection E' as E'. now apply (ki_wd _ _ _ _ (i_k s HI)).
Qed.
(** If no log is in a directory below that of another log, then every directory that is watched is that of a log. *)
Theorem C79_dirs ops w : gentle_run init ops -> flat_run init ops -> let s := run init ops in In w (watches (K s)) -> w_dir w = true ->
  exists p, a_log s p /\ dirname p = w_path w.
Proof.
  intros Hg Hf s Hw Hd. assert (HI : Inv s) by (apply Inv_run; [apply Inv_init | exact Hg]).
  destruct (Tidy_run ops init Inv_init Hg Hf Tidy_init) as [HO _]. apply HO. left. fold s.
  destruct (ki_d _ _ _ _ (i_k s HI) w Hw Hd) as (_ & _ & E). unfold dmem. now rewrite E.
Qed.
(** A log that is removed is not followed any more: nothing with its path is watched or waited for. Every other log keeps its watches and those of
    its directory, and what is waited for, for it or its directory. *)
Theorem C79_removed ops p : gentle_run init ops -> let s := run init ops in todo s = [] -> a_log s p -> let s' := step s (DelLog p) in
  F s' = F s /\ seen (N s') = seen (N s)
  /\ (forall q, a_log s' q <-> a_log s q /\ q <> p)
  /\ ~ waited_for s' p /\ (forall w, In w (watches (K s')) -> In w (watches (K s)) /\ w_path w <> p)
  /\ forall q, a_log s q -> q <> p ->
       (forall r, waits s' q r <-> waits s q r) /\ (forall r, waits s' (dirname q) r <-> waits s (dirname q) r)
       /\ (forall w, In w (watches (K s)) -> w_path w = q \/ w_path w = dirname q -> In w (watches (K s'))).
Proof.
  intros Hg s Ht Hp. assert (HI : Inv s) by (apply Inv_run; [apply Inv_init | exact Hg]). cbv zeta. unfold a_log in *.
  pose proof (i_k s HI) as HK. pose proof (i_n s HI) as HN. assert (Hwf : dwf (pend (N s))) by apply (ni_pwf _ _ HN).
  unfold step. rewrite Ht. unfold del_log. assert (Ep : inb p (logs (N s)) = true) by now apply inb_In. rewrite Ep.
  set (n0 := del_pending p (set_logs (filter (fun q => negb (eqb q p)) (logs (N s))) (N s))).
  assert (Hl : forall q, In q (logs n0) <-> In q (logs (N s)) /\ q <> p).
  { intros q. cbn [n0 del_pending set_pend set_logs logs]. rewrite filter_In. destruct (eqb_spec q p); cbn; split; intros [A B]; split; auto; congruence. }
  assert (Hp0 : forall q, dget q (pend n0) = if eqb q p then None else dget q (pend (N s))).
  { intros q. cbn [n0 del_pending set_pend set_logs pend]. now apply dget_ddel. }
  destruct (ni_lw _ _ HN p Hp) as [Hw|(c & r & E)]; [|rewrite Ht in E; discriminate]. unfold dmem in Hw. destruct (dget p (wfiles (N s))) as [v|] eqn:Ev; [|discriminate].
  cbn [del_file_watcher]. change (wfiles n0) with (wfiles (N s)). rewrite Ev.
  assert (Hdp : dmem p (wdirs (N s)) = false).
  { destruct (dmem p (wdirs (N s))) eqn:Ed; [|reflexivity]. now destruct (ni_dl _ _ HN p Ed). }
  assert (Hold : forall w, In w (watches (rm_watch v (K s))) <-> In w (watches (K s)) /\ w_wd w <> v).
  { intros w. cbn [rm_watch watches]. rewrite filter_In, negb_true_iff, Z.eqb_neq. tauto. }
  assert (Hnp : forall w, In w (watches (rm_watch v (K s))) -> In w (watches (K s)) /\ w_path w <> p).
  { intros w Hin. apply Hold in Hin as [Hin Hne]. split; [exact Hin|]. intros Epath. destruct (w_dir w) eqn:Ed.
    - destruct (ki_d _ _ _ _ HK w Hin Ed) as (_ & _ & E). rewrite Epath in E. unfold dmem in Hdp. rewrite E in Hdp. discriminate.
    - destruct (ki_f _ _ _ _ HK w Hin Ed) as (_ & _ & E). rewrite Epath, Ev in E. congruence. }
  assert (Hdir : forall q, In q (logs (N s)) -> dirname q <> p).
  { intros q Hq E. destruct (ni_ld _ _ HN q Hq) as [H|(r & H)]; [|rewrite Ht in H; discriminate]. rewrite E in H. congruence. }
  assert (Hkeep : forall q w, In q (logs (N s)) -> q <> p -> In w (watches (K s)) -> w_path w = q \/ w_path w = dirname q -> In w (watches (rm_watch v (K s)))).
  { intros q w Hq Hne Hin Hpath. apply Hold. split; [exact Hin|]. intros E. destruct (ki_wf _ _ _ _ HK p v Ev) as [_ H]. destruct (H w Hin E) as [_ E1].
    destruct Hpath as [Hpath|Hpath]; [congruence|]. apply (Hdir q Hq). congruence. }
  assert (Hnw : forall q, In q (logs (N s)) -> q <> p -> forall x, (q = x \/ dirname q = x) -> eqb x p = false).
  { intros q Hq Hne x [<-|<-]; [destruct (eqb_spec q p); congruence|]. specialize (Hdir q Hq). destruct (eqb_spec (dirname q) p); congruence. }
  set (n1 := set_wfiles (ddel p (wfiles (N s))) n0). destruct (existsb (under (dirname p)) (dkeys (wfiles n1))) eqn:Ex.
  - cbn [F K N]. split; [reflexivity|]. split; [reflexivity|]. split; [exact Hl|]. split.
    { unfold waited_for, dmem. cbn [N]. change (pend n1) with (pend n0). rewrite Hp0, eqb_refl. discriminate. }
    split; [exact Hnp|]. intros q Hq Hne. unfold waits. cbn [N K]. change (pend n1) with (pend n0). split; [|split].
    + intros r. rewrite Hp0, (Hnw q Hq Hne q) by auto. tauto.
    + intros r. rewrite Hp0, (Hnw q Hq Hne (dirname q)) by auto. tauto.
    + intros w. now apply (Hkeep q).
  - assert (Hothers : forall q, In q (logs (N s)) -> q <> p -> dirname q <> dirname p).
    { intros q Hq Hne E. enough (X : existsb (under (dirname p)) (dkeys (wfiles n1)) = true) by congruence. apply existsb_exists. exists q. split.
      - apply dmem_In. cbn [n1 set_wfiles wfiles]. unfold dmem. rewrite dget_ddel by apply (ni_wf _ _ HN). destruct (eqb_spec q p); [congruence|].
        destruct (ni_lw _ _ HN q Hq) as [Hw1|(c & r & C)]; [exact Hw1|]. rewrite Ht in C. discriminate.
      - rewrite <- E. destruct (ni_ne _ _ HN q Hq). now apply under_dirname. }
    assert (Hdl : forall q, In q (logs (N s)) -> q <> dirname p).
    { intros q Hq ->. destruct (ni_ld _ _ HN p Hp) as [H|(r & H)]; [|rewrite Ht in H; discriminate]. now destruct (ni_dl _ _ HN _ H). }
    destruct (ni_ld _ _ HN p Hp) as [H|(r & H)]; [|rewrite Ht in H; discriminate]. unfold dmem in H. destruct (dget (dirname p) (wdirs (N s))) as [u|] eqn:Eu; [|discriminate].
    cbn [del_dir_watcher]. change (wdirs (del_pending (dirname p) n1)) with (wdirs (N s)). rewrite Eu. cbn [F K N].
    assert (Hpd : forall q, dget q (pend (set_wdirs (ddel (dirname p) (wdirs (N s))) (del_pending (dirname p) n1))) = if eqb q (dirname p) then None else dget q (pend n0)).
    { intros q. cbn [set_wdirs del_pending set_pend pend]. change (pend n1) with (pend n0). apply dget_ddel. cbn [n0 del_pending set_pend set_logs pend]. now apply dwf_ddel. }
    split; [reflexivity|]. split; [reflexivity|]. split; [exact Hl|]. split.
    { unfold waited_for, dmem. cbn [N]. rewrite Hpd. destruct (eqb p (dirname p)); [discriminate|]. rewrite Hp0, eqb_refl. discriminate. }
    split; [intros w Hin; apply Hnp; cbn [rm_watch watches] in Hin; apply filter_In in Hin as [Hin _]; exact Hin|].
    intros q Hq Hne. unfold waits. cbn [N K]. split; [|split].
    + intros r. rewrite Hpd. destruct (eqb_spec q (dirname p)) as [E|_]; [now destruct (Hdl q Hq)|]. rewrite Hp0, (Hnw q Hq Hne q) by auto. tauto.
    + intros r. rewrite Hpd. destruct (eqb_spec (dirname q) (dirname p)) as [E|_]; [now destruct (Hothers q Hq Hne)|]. rewrite Hp0, (Hnw q Hq Hne (dirname q)) by auto. tauto.
    + intros w Hin Hpath. change (In w (watches (rm_watch u (rm_watch v (K s))))). cbn [rm_watch watches]. apply filter_In. split; [apply (Hkeep q w Hq Hne Hin Hpath)|].
      destruct (Z.eqb_spec (w_wd w) u) as [E|_]; [exfalso|reflexivity]. destruct (ki_wdr _ _ _ _ HK _ u Eu) as [_ X]. destruct (X w Hin E) as [_ E1].
      destruct Hpath as [Hpath|Hpath]; [apply (Hdl q Hq); congruence | apply (Hothers q Hq Hne); congruence].
Qed.
(** Only logs are read: if lines of a file are read in a step, then it is at the path of a log, and is read to its end. *)
Theorem C79_only_logs ops o i : let s := run init ops in num i (seen (N (step s o))) <> num i (seen (N s)) ->
  exists p, a_log s p /\ dget p (files (F s)) = Some i /\ num i (seen (N (step s o))) = num i (sizes (F s)).
Proof.
  intros s. unfold a_log. assert (Same : forall m, seen m = seen (N s) -> num i (seen m) <> num i (seen (N s)) ->
     exists p, In p (logs (N s)) /\ dget p (files (F s)) = Some i /\ num i (seen m) = num i (sizes (F s))) by (intros m -> C; now destruct C).
  assert (Fold : forall (g : path -> bool) l n, seen (fold_left (fun m d => if g d then add_pending d (Some true) m else m) l n) = seen n).
  { intros g l. induction l as [|d l IH]; intros n; [reflexivity|]. cbn [fold_left]. rewrite IH. destruct (g d); [apply add_pending_rest | reflexivity]. }
  assert (Add : forall p b n, seen (add_pending p b n) = seen n) by (intros; apply add_pending_rest).
  assert (Ad : forall d f k n, seen (snd (add_dir_watcher d f (k, n))) = seen n).
  { intros d f k n. cbn [add_dir_watcher]. destruct (dmem d (wdirs n)); [reflexivity|]. destruct (add_watch _ _ _ _). reflexivity. }
  assert (Af : forall d f k n, seen (snd (add_file_watcher d f (k, n))) = seen n).
  { intros d f k n. unfold add_file_watcher. specialize (Ad (dirname d) f k n). destruct (add_dir_watcher _ _ _). destruct (add_watch _ _ _ _). exact Ad. }
  assert (Df : forall d k n, seen (snd (del_file_watcher d (k, n))) = seen n).
  { intros d k n. cbn [del_file_watcher]. destruct (dget d (wfiles n)); reflexivity. }
  assert (Dd : forall d k n, seen (snd (del_dir_watcher d (k, n))) = seen n).
  { intros d k n. cbn [del_dir_watcher]. destruct (dget d (wdirs n)); reflexivity. }
  unfold step. destruct o as [q|j|q|q c|q' q|q|q|d|d|d|e| | |now later|q|q|b'].
  - destruct (dget q (files (F s))); now apply Same.
  - now apply Same.
  - destruct (room (F s) q && negb (isfile (F s) q)); now apply Same.
  - destruct (room (F s) q); now apply Same.
  - destruct (dget q' (files (F s))); [|now apply Same]. destruct (room (F s) q && negb (eqb q' q)); now apply Same.
  - destruct (isfile (F s) q); now apply Same.
  - destruct (isfile (F s) q); now apply Same.
  - destruct (room (F s) d && negb (isfile (F s) d)); now apply Same.
  - destruct (dget d (dirs (F s))); [|now apply Same]. destruct (_ || _); now apply Same.
  - destruct (dget d (dirs (F s))); [|now apply Same]. destruct (eqb d []); now apply Same.
  - now apply Same.
  - destruct (todo s); [|now apply Same]. destruct (queue (K s)) as [|e q]; [now apply Same|]. pose proof (m_seen _ _ (callback_more e (F s) (N s))) as H.
    destruct (callback e (F s) (N s)). now apply Same.
  - destruct (todo s) as [|m t]; [now apply Same|]. unfold micro_step. destruct m as [q c|q c|d|d|q|q|q c|d|q].
    + specialize (Df q (K s) (N s)). destruct (del_file_watcher q (K s, N s)). now apply Same.
    + specialize (Af q (F s) (K s) (N s)). destruct (add_file_watcher q (F s) (K s, N s)). now apply Same.
    + specialize (Dd d (K s) (N s)). destruct (del_dir_watcher d (K s, N s)). now apply Same.
    + specialize (Ad d (F s) (K s) (N s)). destruct (add_dir_watcher d (F s) (K s, N s)). now apply Same.
    + destruct (isfile (F s) q); [now apply Same | apply Same, Add].
    + cbn [N]. unfold process_file. destruct (idle (N s)); [now apply Same|]. destruct (inb q (logs (N s))) eqn:Eq; [|now apply Same]. cbn [negb].
      destruct (dget q (files (F s))) as [j|] eqn:Ej; [|now apply Same]. cbn [seen].
      assert (En : forall v, num i (dset j v (seen (N s))) = if eqb i j then v else num i (seen (N s))) by (intros v; unfold num; rewrite dget_dset; now destruct (eqb i j)).
      rewrite !En. destruct (eqb_spec i j) as [->|Nj].
      * intros _. exists q. split; [now apply inb_In|]. auto.
      * intros C. now destruct C.
    + now apply Same.
    + now apply Same.
    + destruct (isfile (F s) q); [now apply Same | apply Same, Add].
  - destruct (todo s); [|now apply Same]. destruct (idle (N s)); [now apply Same|]. assert (E : seen (fst (check_pending now later (F s) (N s))) = seen (N s)).
    { unfold check_pending. destruct (pend (N s)); [reflexivity|]. destruct (_ <? _); reflexivity. }
    destruct (check_pending now later (F s) (N s)). now apply Same.
  - destruct (todo s); [|now apply Same]. unfold add_log. destruct (inb q (logs (N s)) || negb (isfile (F s) q)); [now apply Same|].
    specialize (Af q (F s) (K s) (set_logs (logs (N s) ++ [q]) (N s))). destruct (add_file_watcher q (F s) (K s, set_logs (logs (N s) ++ [q]) (N s))) as [k n].
    apply Same. cbn [N]. rewrite Add. exact Af.
  - destruct (todo s); [|now apply Same]. unfold del_log. destruct (inb q (logs (N s))); [|now apply Same].
    set (n0 := del_pending q _). specialize (Df q (K s) n0). destruct (del_file_watcher q (K s, n0)) as [k n].
    destruct (existsb _ _); [now apply Same|]. specialize (Dd (dirname q) k (del_pending (dirname q) n)).
    destruct (del_dir_watcher (dirname q) (k, del_pending (dirname q) n)) as [k1 n1]. cbn [snd N] in *. apply Same. rewrite Dd. exact Df.
  - now apply Same.
Qed.
(** DEMO: two logs in a directory, one in another; the first is removed, then the second *)
Definition two : list op :=
  [MkDir log; MkDir ["web"]; Create auth; Create ["log"; "mail"]; Create ["web"; "err"]; AddLog auth; AddLog ["log"; "mail"]; AddLog ["web"; "err"]; Check 300 301] ++ busy ++ busy.
Example C79_demo : gentle_run init (two ++ [DelLog auth]) /\ flat_run init (two ++ [DelLog auth])
  /\ map w_path (watches (K (run init two))) = [log; auth; ["log"; "mail"]; ["web"]; ["web"; "err"]]
  /\ todo (run init two) = [] /\ a_log (run init two) auth
  /\ map w_path (watches (K (run init (two ++ [DelLog auth])))) = [log; ["log"; "mail"]; ["web"]; ["web"; "err"]]
  /\ map w_path (watches (K (run init (two ++ [DelLog auth; DelLog ["log"; "mail"]])))) = [["web"]; ["web"; "err"]].
Proof.
  split; [apply gentleb_ok; vm_compute; reflexivity|]. split; [apply flatb_ok; vm_compute; reflexivity|]. unfold a_log. vm_compute. auto 10.
Qed.
(** Finding: with a log in a directory below that of another log, a directory may be watched for ever. When the log /a/x is removed, /a stays
    watched because of /a/b/y; when that is removed, only /a/b is given up. No log is left, and /a is watched. *)
Definition nested : list op :=
  [MkDir ["a"]; MkDir ["a"; "b"]; Create ["a"; "x"]; Create ["a"; "b"; "y"]; AddLog ["a"; "x"]; AddLog ["a"; "b"; "y"]; Check 300 301] ++ busy
  ++ [DelLog ["a"; "x"]; DelLog ["a"; "b"; "y"]] ++ busy.
Theorem C79_leak_refuted : exists ops w, gentle_run init ops /\ let s := run init ops in at_rest s /\ logs (N s) = [] /\ In w (watches (K s)).
Proof.
  exists nested, (mkW 1 1 ["a"] true). split; [apply gentleb_ok; vm_compute; reflexivity|]. unfold at_rest. vm_compute. auto.
Qed.

Print Assumptions C76_followed.
Print Assumptions C76_waiting.
Print Assumptions C76_demo.
Print Assumptions C76_race_refuted.
Print Assumptions C76_above_refuted.
Print Assumptions C76_renamed_refuted.
Print Assumptions C76_root_refuted.
Print Assumptions C77_catches_up.
Print Assumptions C77_rests.
Print Assumptions C77_due.
Print Assumptions C77_demo.
Print Assumptions C77_idle_refuted.
Print Assumptions C78_waits.
Print Assumptions C78_minute.
Print Assumptions C78_check.
Print Assumptions C78_demo.
Print Assumptions C78_new.
Print Assumptions C78_starved_refuted.
Print Assumptions C79_files.
Print Assumptions C79_dirs.
Print Assumptions C79_removed.
Print Assumptions C79_only_logs.
Print Assumptions C79_demo.
Print Assumptions C79_leak_refuted.
