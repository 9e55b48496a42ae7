(** Proofs for bans across restarts, first part: what a step of the actions does to the ban list and
    tells the observer and the database. *)
From Verif Require Import Base Ticket_Model BanManager_Model BanManager_Spec BanManager_Proofs
  Actions_Model Actions_Spec Actions_Proofs Actions_Proofs2.

(** Tickets that agree in all that the database stores of a ban's duration. *)
Definition sim (t t' : ticket) : Prop :=
  t_id t' = t_id t /\ t_time t' = t_time t /\ t_bantime t' = t_bantime t /\ t_restored t' = t_restored t.
Definition osim (a b : option ticket) : Prop :=
  match a, b with Some t, Some t' => sim t t' | None, None => True | _, _ => False end.

Lemma sim_refl t : sim t t.
Proof. repeat split. Qed.
Lemma osim_refl a : osim a a.
Proof. destruct a; cbn; auto using sim_refl. Qed.
Lemma osim_trans a b c : osim a b -> osim b c -> osim a c.
Proof.
  destruct a, b, c; cbn; try tauto. unfold sim. intros (?&?&?&?) (?&?&?&?). repeat split; congruence.
Qed.

(** Calls that neither the observer nor the database gets. *)
Definition local (c : call) : bool := match c with CObserver _ | CDbDel _ => false | _ => true end.

(** A part of a step that only talks to the actions and marks tickets. *)
Definition calm (s s' : acts) : Prop :=
  (forall id, osim (dget id (bm_list (as_bm s))) (dget id (bm_list (as_bm s'))))
  /\ bm_time (as_bm s') = bm_time (as_bm s) /\ as_queue s' = as_queue s /\ as_db s' = as_db s
  /\ exists cs, new_calls s s' cs /\ forallb local cs = true.

Lemma calm_refl s : calm s s.
Proof.
  split; [intros; apply osim_refl|]. do 3 (split; [reflexivity|]). exists []. split; [now apply new_calls_refl|reflexivity].
Qed.
Lemma calm_trans a b c : calm a b -> calm b c -> calm a c.
Proof.
  intros (A1&A2&A3&A4&x&A5&A6) (B1&B2&B3&B4&y&B5&B6).
  split; [intros; eapply osim_trans; eauto|]. do 3 (split; [congruence|]).
  exists (x ++ y). split; [eapply new_calls_trans; eauto|]. now rewrite forallb_app, A6, B6.
Qed.
Lemma calm_frame s s' cs : frame s s' -> new_calls s s' cs -> forallb local cs = true -> calm s s'.
Proof.
  intros (F1&F2&F3&F4&F5&F6) N L. unfold calm. rewrite F1. split; [intros; apply osim_refl|].
  do 3 (split; [auto|]). eauto.
Qed.

Lemma local_unbans i (names : list string) : forallb local (map (fun n => CUnban n i) names) = true.
Proof. induction names; cbn; auto. Qed.

Section O.
Context (orc : oracle).

Lemma calm_act_call n c s s' r : local c = true -> act_call orc n c s = (s', r) -> calm s s'.
Proof.
  intros I E. apply act_call_spec in E as (F & T & _ & _). eapply calm_frame; [exact F| |].
  - eexists. split; [exact T|reflexivity].
  - cbn. now rewrite I.
Qed.
Lemma calm_call_all mk names s : (forall n, local (mk n) = true) -> calm s (call_all orc mk names s).
Proof.
  intros I. revert s. induction names as [|n names IH]; intros s; cbn [call_all]; [apply calm_refl|].
  destruct (act_call orc n (mk n) s) as [s1 r] eqn:E. cbn [fst].
  apply (calm_trans _ s1); [|apply IH]. exact (calm_act_call _ _ _ _ _ (I n) E).
Qed.
Lemma calm_mark id s : calm s (mark_banned id s).
Proof.
  pose proof (mark_banned_spec id s) as (M1&M2&M3&M4&M5&M6&M7&M8&M9&M10&M11&M12&M13). cbn zeta in *.
  split; [|do 3 (split; [assumption|])].
  - intros k. destruct (eqb_spec k id) as [->|N].
    + destruct (dget id (bm_list (as_bm s))) as [t|] eqn:G.
      * rewrite (M13 _ eq_refl). repeat split.
      * unfold mark_banned. rewrite G, G. exact I.
    + rewrite M12 by exact N. apply osim_refl.
  - exists []. split; [|reflexivity]. now apply new_calls_refl.
Qed.
Lemma calm_reban_loop id names s s' b : reban_loop orc id names s = (s', b) -> calm s s'.
Proof.
  revert s. induction names as [|n names IH]; intros s; cbn [reban_loop check_loop].
  - intros E. injection E as <- _. apply calm_refl.
  - destruct (act_call orc n (CReban n id) s) as [s1 r] eqn:E1.
    assert (Q : calm s s1) by (eapply calm_act_call; eauto; reflexivity).
    destruct (r_raise r); intros E; [injection E as <- _; exact Q|].
    eapply calm_trans; [exact Q | now apply IH].
Qed.
Lemma calm_reban id names s s' c : reban orc id names s = (s', c) -> calm s s'.
Proof.
  unfold reban. destruct (reban_loop _ _ _ _) as [s1 []] eqn:E; intros X; injection X as <- _.
  - eapply calm_trans; [eapply calm_reban_loop; eauto | apply calm_mark].
  - eapply calm_reban_loop; eauto.
Qed.
Lemma calm_check_loop names s s' b : check_loop orc names s = (s', b) -> calm s s'.
Proof.
  revert s. induction names as [|n names IH]; intros s; cbn [reban_loop check_loop].
  - intros E. injection E as <- _. apply calm_refl.
  - destruct (act_call orc n (CCheck n) s) as [s1 r] eqn:E1.
    assert (Q : calm s s1) by (eapply calm_act_call; eauto; reflexivity).
    destruct (r_raise r); intros E; [injection E as <- _; exact Q|].
    eapply calm_trans; [exact Q | now apply IH].
Qed.
Lemma calm_last v s : calm s (with_last v s).
Proof.
  split; [intros; apply osim_refl|]. do 3 (split; [reflexivity|]). exists []. split; [now apply new_calls_refl|reflexivity].
Qed.

(** A known ID: the tail of [check_ban_one]. *)
Lemma calm_known tk now ra s1 s' r :
  (match dget (t_id tk) (bm_list (as_bm s1)) with
      | None => (s1, None)
      | Some b =>
          if t_banned b then
            let diftm := t_time tk - t_time b in
            let check := (t_epoch b =? as_epoch s1) && (diftm >? 3)
                         && match ra with [] => true | _ => false end && (now >? as_last s1 + 3) in
            let '(s, ok) := if check then check_loop orc (checkers (as_actions s1)) (with_last now s1)
                            else (s1, true) in
            if ok then
              if t_epoch b <? as_epoch s then
                match (match ra with [] => reban_acts (t_epoch b) (as_actions s) | _ => Some ra end) with
                | None => (s, None)
                | Some ra => let '(s, c) := reban orc (t_id tk) ra s in (s, Some (c, ra))
                end
              else (s, Some (0%nat, ra))
            else (s, None)
          else let '(s, c) := reban orc (t_id tk) [] s1 in (s, Some (c, ra))
      end) = (s', r) -> calm s1 s'.
Proof.
  destruct (dget (t_id tk) (bm_list (as_bm s1))) as [b|]; [|intros E; injection E as <- _; apply calm_refl].
  destruct (t_banned b).
  - cbn zeta. match goal with |- context [if ?c then check_loop _ _ _ else _] => destruct c end.
    + destruct (check_loop orc _ _) as [s2 ok] eqn:Ec.
      assert (Q2 : calm s1 s2) by (eapply calm_trans; [apply calm_last | eapply calm_check_loop; eauto]).
      destruct ok; [|intros E; injection E as <- _; exact Q2].
      destruct (t_epoch b <? as_epoch s2); [|intros E; injection E as <- _; exact Q2].
      match goal with |- context [match ?x with Some _ => _ | None => _ end] => destruct x end;
        [|intros E; injection E as <- _; exact Q2].
      destruct (reban orc (t_id tk) l s2) as [s3 c] eqn:Er. intros E; injection E as <- _.
      eapply calm_trans; [exact Q2 | eapply calm_reban; eauto].
    + destruct (t_epoch b <? as_epoch s1); [|intros E; injection E as <- _; apply calm_refl].
      match goal with |- context [match ?x with Some _ => _ | None => _ end] => destruct x end;
        [|intros E; injection E as <- _; apply calm_refl].
      destruct (reban orc (t_id tk) l s1) as [s3 c] eqn:Er. intros E; injection E as <- _.
      eapply calm_reban; eauto.
  - destruct (reban orc (t_id tk) [] s1) as [s3 c] eqn:Er. intros E; injection E as <- _.
    eapply calm_reban; eauto.
Qed.

(** One ticket that does not lengthen a ban. *)
Lemma one_ticket tk now ra s s' r : check_ban_one orc tk now ra s = (s', r) ->
  (forall old, dget (t_id tk) (bm_list (as_bm s)) = Some old ->
     end_of_ban (bm_time (as_bm s)) tk <= end_of_ban (bm_time (as_bm s)) old) ->
  (calm s s' /\ (end_of_ban (bm_time (as_bm s)) tk < now \/ dget (t_id tk) (bm_list (as_bm s)) <> None))
  \/ (dget (t_id tk) (bm_list (as_bm s)) = None
      /\ end_of_ban (bm_time (as_bm s)) tk >= now
      /\ (exists t, dget (t_id tk) (bm_list (as_bm s')) = Some t /\ sim tk t)
      /\ (forall id, id <> t_id tk -> osim (dget id (bm_list (as_bm s))) (dget id (bm_list (as_bm s'))))
      /\ bm_time (as_bm s') = bm_time (as_bm s) /\ as_queue s' = as_queue s /\ as_db s' = as_db s
      /\ exists cs, new_calls s s' ((if t_restored tk then [] else [CObserver (t_id tk)]) ++ cs) /\ forallb local cs = true).
Proof.
  intros E NL. unfold check_ban_one, ban_begin in E.
  destruct (add_ban (as_bm s) (with_isban true tk) now) as [bm ar] eqn:Ea.
  unfold add_ban in Ea. change (t_id (with_isban true tk)) with (t_id tk) in Ea.
  change (end_of_ban (bm_time (as_bm s)) (with_isban true tk)) with (end_of_ban (bm_time (as_bm s)) tk) in Ea.
  destruct (Z.ltb_spec (end_of_ban (bm_time (as_bm s)) tk) now) as [Lt|Ge].
  - injection Ea as <- <-. cbn iota beta in E. injection E as <- _. left. split; [|left; exact Lt].
    destruct s; apply calm_refl.
  - destruct (dget (t_id tk) (bm_list (as_bm s))) as [old|] eqn:G.
    + specialize (NL old eq_refl). destruct (Z.gtb_spec (end_of_ban (bm_time (as_bm s)) tk) (end_of_ban (bm_time (as_bm s)) old)); [lia|].
      injection Ea as <- <-. cbn iota beta in E. left. split; [|right; congruence].
      replace (with_bm (as_bm s) s) with s in E by now destruct s.
      eapply calm_known; exact E.
    + right. injection Ea as <- <-. cbn iota beta in E. apply (f_equal fst) in E. cbn [fst] in E. rewrite <- E. clear E s'.
      split; [reflexivity|]. split; [lia|].
      set (bm' := mkBM _ _ _ _).
      set (s1 := if t_restored tk then with_bm bm' s else fst (emit orc (CObserver (t_id tk)) (with_bm bm' s))).
      assert (H1 : frame (with_bm bm' s) s1 /\ new_calls s s1 (if t_restored tk then [] else [CObserver (t_id tk)])).
      { unfold s1. destruct (t_restored tk).
        - split; [apply frame_refl|]. now apply new_calls_refl.
        - destruct (emit orc _ _) as [s2 r2] eqn:E. cbn [fst]. apply emit_spec in E as (F & T & _ & _).
          split; [exact F|]. exists [(CObserver (t_id tk), r2)]. auto. }
      clearbody s1. destruct H1 as [(F1&F2&F3&F4&F5&F6) N1].
      assert (C : calm s1 (ban_actions orc tk s1)).
      { unfold ban_actions. eapply calm_trans; [apply (calm_call_all (fun n => CBan n (t_id tk)) (asked (t_restored tk) (as_actions s1)))|apply calm_mark]. reflexivity. }
      destruct C as (C1&C2&C3&C4&cs&C5&C6). rewrite F1 in C1, C2. cbn [as_bm with_bm as_queue as_db bm_time bm_list] in *.
      split; [|split; [|split; [|split; [|split]]]].
      * specialize (C1 (t_id tk)). unfold bm' in C1. cbn [bm_list] in C1. rewrite dget_dset_same in C1.
        destruct (dget (t_id tk) (bm_list (as_bm (ban_actions orc tk s1)))) as [t|]; [|destruct C1].
        exists t. split; [reflexivity|]. exact C1.
      * intros id N. specialize (C1 id). unfold bm' in C1. cbn [bm_list] in C1. now rewrite dget_dset_other in C1.
      * rewrite C2. reflexivity.
      * congruence.
      * congruence.
      * exists cs. split; [|exact C6]. eapply new_calls_trans; eauto.
Qed.

(** An expiry check. *)
Lemma expiry_step now n s : wf_bm (as_bm s) -> now <= MAX_TIME -> let s' := fst (check_unban orc now n s) in
  (forall id, dget id (bm_list (as_bm s')) = dget id (bm_list (as_bm s))
     \/ (dget id (bm_list (as_bm s')) = None /\ exists t, dget id (bm_list (as_bm s)) = Some t
         /\ get_bantime (bm_time (as_bm s)) t <> -1 /\ t_time t + get_bantime (bm_time (as_bm s)) t < now))
  /\ bm_time (as_bm s') = bm_time (as_bm s) /\ as_queue s' = as_queue s /\ as_db s' = as_db s
  /\ exists cs, new_calls s s' cs /\ forallb local cs = true.
Proof.
  intros W HM. cbn zeta. unfold check_unban. destruct (unban_list (as_bm s) now n) as [bm l] eqn:E. cbn [fst].
  destruct (unban_each_calls orc (dkeys (as_actions s)) l (with_bm bm s)) as (F & N). cbn zeta in *.
  destruct F as (F1&F2&F3&F4&F5&F6). rewrite F1, F3, F5. cbn [as_bm with_bm as_queue as_db].
  destruct W as [Hd Hk]. split; [|split; [|split; [reflexivity|split; [reflexivity|]]]].
  - intros id. destruct (unban_list_cases _ _ _ _ _ Hd E) as [(->&_)|(_&_&HL&_)]; [now left|].
    rewrite HL, <- remove_first by exact Hd.
    rewrite dget_filter by exact Hd. destruct (dget id (bm_list (as_bm s))) as [t|] eqn:G; [|now left].
    match goal with |- context [if ?b then Some t else None] => destruct b eqn:Eb end; [now left|]. right. split; [reflexivity|].
    exists t. split; [reflexivity|].
    assert (X : expired (bm_time (as_bm s)) now (id, t) = true).
    { apply negb_false_iff in Eb. apply dmem_In in Eb. cbn [fst] in Eb.
      apply in_map_iff in Eb as ([k t'] & Ek & I). cbn in Ek. subst k. apply firstn_In in I. apply filter_In in I as [I X].
      apply In_dget in I; [|exact Hd]. rewrite G in I. injection I as <-. exact X. }
    unfold expired, end_of_ban in X. cbn [snd] in X. destruct (Z.eqb_spec (get_bantime (bm_time (as_bm s)) t) (-1)); lia.
  - destruct (unban_list_cases _ _ _ _ _ Hd E) as [(->&_)|(_&_&_&HT&_)]; [reflexivity|exact HT].
  - destruct N as (tr & T & M). eexists. split; [exists tr; split; [exact T|reflexivity]|]. rewrite M.
    clear. induction l as [|t l IH]; cbn; [reflexivity|]. now rewrite forallb_app, IH, local_unbans.
Qed.

(** A full flush. *)
Lemma flush_step s : quiet_checks orc -> as_db s = true -> NoDup (action_names s) -> wf_bm (as_bm s) ->
  let s' := fst (flush_ban orc true None s) in
  bm_list (as_bm s') = [] /\ bm_time (as_bm s') = bm_time (as_bm s) /\ as_queue s' = as_queue s /\ as_db s' = true
  /\ exists a b, new_calls s s' (a ++ CDbDel None :: b) /\ forallb local a = true /\ forallb local b = true.
Proof.
  intros Q D ND W. cbn zeta. pose proof (flush_ban_quiet orc true None s Q) as NN.
  destruct (flush_ban orc true None s) as [s' [k|]] eqn:E; cbn [fst snd] in *; [|congruence].
  pose proof (flush_ban_frame _ _ _ _ _ _ E) as (_ & _ & Eb).
  destruct (flush_ban_all _ _ _ _ _ ND W E) as (_ & L & _ & Eq & _ & ftr & rest & T & _ & Ab & M).
  split; [exact L|]. split; [now rewrite Eb|]. split; [exact Eq|].
  assert (Ed : as_db s' = as_db s).
  { unfold flush_ban, flush_ban_list in E. cbn [fst snd] in E.
    destruct (flush_loop orc _ _) as [s2 [nm|]] eqn:E2; [|discriminate]. apply flush_loop_frame in E2 as (F1&F2&F3&F4&F5&F6).
    injection E as <- _.
    match goal with |- as_db (unban_each orc nm ?l ?x) = _ => destruct (unban_each_calls orc nm l x) as ((G1&G2&G3&G4&G5&G6) & _) end.
    rewrite G5. transitivity (as_db s2); [destruct (as_db s2) eqn:X; [exact X|exact X]|exact F5]. }
  split; [congruence|].
  rewrite D in M. cbn [andb app] in M.
  exists (map fst ftr). eexists. split; [|split].
  - exists (ftr ++ rest). split; [exact T|]. now rewrite map_app, M.
  - clear -Ab. induction Ab as [|[c r] l (n & _ & [H|H]) _ IH]; cbn in *; auto; now rewrite H, IH.
  - clear. induction (banned_ids s) as [|i l IH]; cbn; [reflexivity|]. now rewrite forallb_app, IH, local_unbans.
Qed.

(** An unban command: which stored bans it deletes. *)
Lemma unban_deletes sub names : forall ids bans x,
  In (CDbDel (Some x)) (unban_calls sub true names ids bans) <-> In x ids \/ In x (lifted sub ids bans).
Proof.
  assert (U : forall i x n, In (CDbDel (Some x)) (map (fun n : string => CUnban n i) n) <-> False).
  { intros i x n. split; [|tauto]. intros I. apply in_map_iff in I as (y & X & _). discriminate. }
  induction ids as [|i ids IH]; intros bans x; cbn [unban_calls lifted].
  - cbn. tauto.
  - rewrite in_app_iff, IH, in_app_iff. unfold unban_calls1. cbn [db_calls app In].
    assert (K : In (CDbDel (Some x)) (if inb i bans then map (fun n => CUnban n i) names
              else flat_map (fun i0 => CDbDel (Some i0) :: map (fun n => CUnban n i0) names) (hits sub bans i)) ->
              In x (hits sub bans i) \/ False).
    { unfold hits. destruct (inb i bans) eqn:Ei; [intros X; apply U in X; tauto|].
      intros X. left. apply in_flat_map in X as (y & Iy & [Y|Y]); [injection Y as <-; exact Iy|apply U in Y; tauto]. }
    assert (K2 : In x (hits sub bans i) -> i = x \/ In (CDbDel (Some x)) (if inb i bans then map (fun n => CUnban n i) names
              else flat_map (fun i0 => CDbDel (Some i0) :: map (fun n => CUnban n i0) names) (hits sub bans i))).
    { intros X. unfold hits in *. destruct (inb i bans) eqn:Ei; [destruct X as [X|[]]; now left|].
      right. apply in_flat_map. exists x. split; [exact X|now left]. }
    split.
    + intros [[H|H]|[H|H]].
      * injection H as ->. left. now left.
      * destruct (K H) as [H'|[]]. right. now left.
      * left. now right.
      * right. now right.
    + intros [[->|H]|[H|H]]; [left; now left|right; now left| |right; now right].
      destruct (K2 H) as [->|H']; [left; now left|left; now right].
Qed.
Lemma unban_no_observer sub names : forall ids bans c, In c (unban_calls sub true names ids bans) ->
  local c = true \/ exists x, c = CDbDel (Some x).
Proof.
  induction ids as [|i ids IH]; intros bans c; cbn [unban_calls]; [intros []|].
  intros I. apply in_app_or in I as [I|I]; [|eauto]. unfold unban_calls1 in I. cbn [db_calls app In] in I.
  assert (U : forall i n, In c (map (fun n : string => CUnban n i) n) -> local c = true).
  { intros i0 n X. apply in_map_iff in X as (y & <- & _). reflexivity. }
  destruct I as [<-|I]; [right; eauto|]. destruct (inb i bans); [left; eauto|].
  apply in_flat_map in I as (y & _ & [<-|Y]); [right; eauto|left; eauto].
Qed.
Lemma unban_gone sub : forall ids bans x, In x ids -> In x bans -> In x (lifted sub ids bans).
Proof.
  induction ids as [|i ids IH]; intros bans x I B; [destruct I|]. cbn [lifted]. apply in_or_app.
  destruct (inb x (hits sub bans i)) eqn:E; [left; now apply inb_In|]. right. apply inb_false in E.
  destruct I as [->|I].
  - exfalso. apply E. unfold hits. apply inb_In in B. rewrite B. now left.
  - apply IH; [exact I|]. unfold without. apply filter_In. split; [exact B|]. apply negb_true_iff. now apply inb_false.
Qed.
End O.
