(** C67: bans across restarts. *)
From Verif Require Import Base Ticket_Model BanManager_Model Actions_Model Actions_Spec Actions_Props Persist_Model Persist_Spec Persist_Check.
From Verif Require Database_Model Database_Spec Persist_Proofs2.
Require Import ZifyBool ZifyNat.

(** ** C67 *)
Section C67.
Import Database_Model Database_Spec Persist_Proofs2.
Variables (e : penv) (now0 : Z) (ops : list p_op).
Hypotheses (SE : sane_env e) (CF : careful e now0 (p_first e now0) ops).
Let st := p_run e (p_first e now0) ops.
Let c := clock_after now0 ops.

(** Whatever happened before - bans, commands, expiry, other jails' use of the database, purges, earlier
    restarts, and whatever the actions' commands did - a restart at [now] brings back exactly the bans
    that were in force and still run, each once, with the beginning they had and the ban time that the
    jail's settings allow; only for IDs with a ban that the observer has not yet looked at nothing is
    said. *)
Theorem C67_restart now : c <= now <= MAX_TIME ->
  NoDup (map t_id (brought_back e st now)) /\
  (forall id, ~ unstored st id ->
     (In id (map t_id (brought_back e st now)) <->
        id <> ""%string /\ e_ign e id = false /\ exists t, in_force st id t /\ still_runs e now t) /\
     (forall tk, In tk (brought_back e st now) -> t_id tk = id ->
        exists t, in_force st id t /\ t_time tk = t_time t /\ t_bantime tk = Some (length_then e t) /\ t_restored tk = true)).
Proof.
  intros [LC LM]. destruct (inv_first e SE now0) as (h0 & I0). destruct (inv_run e SE ops _ _ _ I0 CF) as (h & I1). fold st c in I1.
  assert (SH : sane_history now (h ++ [DStart; DAddJail (e_jail e)])).
  { apply Forall_app. split; [eapply sane_later; [exact LC|apply I1]|]. repeat constructor. }
  assert (WU : well_used (e_jail e) (h ++ [DStart; DAddJail (e_jail e)]) false) by (apply well_used_app; [apply I1|]; cbn; auto).
  assert (LB : forall i, last_ban (e_jail e) i (h ++ [DStart; DAddJail (e_jail e)]) None = last_ban (e_jail e) i h None) by (intros; now rewrite last_ban_app).
  assert (BB : brought_back e st now = restore (e_jail e) (e_js e) now (fun _ => now) (e_ign e) (db_run (e_cfg e) (h ++ [DStart; DAddJail (e_jail e)]) db_init)).
  { unfold brought_back. cbn [p_step restart p_acts as_queue with_queue]. rewrite db_run_app, <- (i_db _ _ _ _ I1). reflexivity. }
  destruct (Database_Props.C21_restore_exact (e_cfg e) (e_js e) (e_jail e) _ now (e_ign e) (proj1 SE) (proj1 (proj2 SE)) SH WU) as (R1 & R2 & R3).
  cbn zeta in *. rewrite <- BB in R1, R2, R3. split; [exact R1|]. intros id NU.
  assert (NL : ~ live st id). { intros (b & Ib). apply NU. unfold unstored. apply (in_map pend_id) in Ib. exact Ib. }
  assert (K : In id (map t_id (brought_back e st now)) -> exists en t, last_ban (e_jail e) id h None = Some en /\ in_force st id t /\ agree e t en /\ still_runs e now t).
  { intros I2. apply R3 in I2 as (N & G & en & L & _ & Ru). rewrite LB in L.
    assert (Ru0 : running c (t_time (snd en)) (elen e en)) by (eapply running_before; eauto).
    destruct (stored_in_force e c st h id en I1 L N G Ru0) as (_ & t & F & A). exists en, t. split; [exact L|]. split; [exact F|]. split; [exact A|].
    destruct A as [A1 A2]. unfold still_runs. rewrite A1, A2. exact Ru. }
  split.
  - split.
    + intros I2. destruct (K I2) as (en & t & _ & F & _ & S). apply R3 in I2 as (N & G & _). eauto 6.
    + intros (N & G & t & F & S).
      assert (S0 : still_runs e c t) by (eapply running_before; eauto).
      destruct (in_force_stored e c st h id t I1 F NL S0) as (en & L & A1 & A2).
      apply R3. split; [exact N|]. split; [exact G|]. exists en. split; [now rewrite LB|]. split; [eapply last_ban_id; [|exact L]; discriminate|].
      unfold still_runs in S. rewrite A1, A2 in S. exact S.
  - intros tk I2 Id. destruct (R2 tk I2) as (en & L & RS). rewrite Id, LB in L.
    assert (I3 : In id (map t_id (brought_back e st now))) by (rewrite <- Id; now apply in_map).
    destruct (K I3) as (en' & t & L' & F & [A1 A2] & _). rewrite L in L'. injection L' as <-. destruct RS as (_ & S2 & S3 & _ & _ & _ & S7).
    exists t. split; [exact F|]. split; [congruence|]. split; [now rewrite A2|exact S7].
Qed.

(** A ban that the observer has looked at stays in force over any further history with any number of
    restarts, as long as it runs and nobody lifts it. *)
Theorem C67_survives id t more : careful e c st more -> in_force st id t -> ~ unstored st id -> id <> ""%string -> e_ign e id = false ->
  never_lifted e st more id -> still_runs e (clock_after c more) t ->
  exists t', in_force (p_run e st more) id t' /\ t_time t' = t_time t /\ length_then e t' = length_then e t.
Proof.
  intros CM F NU N G NL S. destruct (inv_first e SE now0) as (h0 & I0). destruct (inv_run e SE ops _ _ _ I0 CF) as (h & I1). fold st c in I1.
  assert (NLv : ~ live st id). { intros (b & Ib). apply NU. unfold unstored. apply (in_map pend_id) in Ib. exact Ib. }
  assert (S0 : still_runs e c t) by (eapply running_before; [eapply clock_mono; eauto|exact S]).
  destruct (in_force_stored e c st h id t I1 F NLv S0) as (en & L & [A1 A2]).
  assert (Ru : running (clock_after c more) (t_time (snd en)) (elen e en)) by (unfold still_runs in S; rewrite A1, A2 in S; exact S).
  clear F NU NLv S S0. clearbody st c. clear CF I0. revert c st h I1 L CM NL Ru.
  induction more as [|o more IH]; intros c st h I1 L CM NL Ru.
  - destruct (stored_in_force e c st h id en I1 L N G Ru) as (_ & t' & F & [B1 B2]). exists t'. cbn. split; [exact F|]. split; congruence.
  - pose proof (clock_mono e _ _ _ CM) as LC. destruct CM as (CT & FN & CM). destruct NL as (NL0 & NL).
    assert (Ru0 : running c (t_time (snd en)) (elen e en)) by (eapply running_before; eauto).
    destruct (stored_in_force e c st h id en I1 L N G Ru0) as (NLv & _).
    destruct (inv_step e SE c st h o I1 CT FN) as (h1 & I2 & K). apply (IH (tick c o) (p_step e st o) h1 I2); auto.
    destruct (K id) as [X|[X|X]]; [congruence|contradiction|contradiction].
Qed.

(** In particular: once the restarted jail has dealt with its queue, the ID is in its ban list again. *)
Theorem C67_bans_again now id t more : c <= now <= MAX_TIME -> careful e now (p_step e st (PRestart now)) more ->
  in_force st id t -> ~ unstored st id -> id <> ""%string -> e_ign e id = false ->
  never_lifted e (p_step e st (PRestart now)) more id -> still_runs e (clock_after now more) t ->
  (forall t', ~ waits (p_run e (p_step e st (PRestart now)) more) id t') ->
  exists t', dget id (bm_list (as_bm (p_acts (p_run e (p_step e st (PRestart now)) more)))) = Some t' /\ t_time t' = t_time t /\ length_then e t' = length_then e t.
Proof.
  intros LC CM F NU N G NL S NW.
  destruct (C67_survives id t (PRestart now :: more)) as (t' & [F'|F'] & X); auto.
  - cbn [careful]. split; [exact LC|]. split; [exact I|]. exact CM.
  - split; [intros []|exact NL].
  - exists t'. auto.
  - now apply NW in F'.
Qed.
End C67.

(** ** Examples *)
Local Open Scope string_scope.
Local Open Scope list_scope.
Definition env1 : penv :=
  mkEnv orcF subNone (Database_Model.mkSet 10 86400 3) "j" (Database_Model.mkJset 600 true None 10) (fun id => eqb id "192.0.2.9") jail0.
Lemma env1_sane : sane_env env1.
Proof.
  split; [split; cbn; lia|]. split; [now left|]. split; [right; reflexivity|].
  split. { split; [|split; [split; reflexivity|reflexivity]]. constructor; [intros [H|[]]; discriminate|]. constructor; [intros []|constructor]. }
  split; [reflexivity|]. split; [reflexivity|]. split; [reflexivity|]. intros tr n. reflexivity.
Qed.
(** Four addresses are banned, the third for an hour by the observer; the second is unbanned; the first is
    found again; the server dies and starts again twice. *)
Definition life : list p_op :=
  [PPut (new_ticket "192.0.2.1" 1000 ["l1"] 3); PPut (new_ticket "192.0.2.2" 1001 ["l2"] 3); PPut (new_ticket "192.0.2.3" 1002 ["l3"] 3);
   PTake 1003 []; PObserve 1004 None; PTake 1004 []; PTake 1004 []; PObserve 1005 None; PObserve 1005 (Some (3600, false));
   PBan "192.0.2.4" 1010 []; PUnban ["192.0.2.2"] false; PObserve 1011 None; PDb (Database_Model.DPurge 1012);
   PPut (new_ticket "192.0.2.1" 990 ["l4"] 3); PTake 1013 []; PRestart 1500; PTake 1501 []; PExpire 1610 10].
Lemma life_careful : careful env1 900 (p_first env1 900) life.
Proof. apply carefulb_ok. vm_compute. reflexivity. Qed.
Definition seen (st : pstate) (now : Z) : list (string * Z * option Z) := map (fun t => (t_id t, t_time t, t_bantime t)) (brought_back env1 st now).
Definition banned (st : pstate) : list (string * Z) := map (fun t => (t_id t, end_of_ban 600 t)) (dvals (bm_list (as_bm (p_acts st)))).
Example C67_demo : let st := p_run env1 (p_first env1 900) (firstn 15 life) in
  sane_env env1 /\ careful env1 900 (p_first env1 900) (firstn 15 life) /\ p_pend st = [] /\ clock_after 900 (firstn 15 life) = 1013 /\
  banned st = [("192.0.2.1", 1600); ("192.0.2.3", 4602); ("192.0.2.4", 1610)] /\
  seen st 1500 = [("192.0.2.1", 1000, Some 600); ("192.0.2.3", 1002, Some 3600); ("192.0.2.4", 1010, Some 600)] /\
  seen st 1600 = [("192.0.2.3", 1002, Some 3600); ("192.0.2.4", 1010, Some 600)] /\ seen st 5000 = [].
Proof. split; [exact env1_sane|]. split; [apply carefulb_ok; vm_compute; reflexivity|]. vm_compute. repeat split. Qed.
(** In the middle of restoring, and with an ignored address. *)
Example C67_demo_again : let st := p_run env1 (p_first env1 900) life in
  careful env1 900 (p_first env1 900) life /\ banned st = [] /\ map t_id (as_queue (p_acts st)) = ["192.0.2.3"; "192.0.2.4"] /\
  seen st 1609 = [("192.0.2.3", 1002, Some 3600); ("192.0.2.4", 1010, Some 600)] /\
  (let st' := p_run env1 st [PTake 1611 []; PTake 1611 []; PBan "192.0.2.9" 1612 []; PObserve 1613 None] in
   banned st' = [("192.0.2.3", 4602); ("192.0.2.9", 2212)] /\ seen st' 1620 = [("192.0.2.3", 1002, Some 3600)]).
Proof. split; [exact life_careful|]. vm_compute. repeat split. Qed.
Example C67_demo_survives : let st := p_run env1 (p_first env1 900) (firstn 12 life) in let more := skipn 12 life ++ [PRestart 2000; PTake 2001 []; PUnban ["192.0.2.7"] false] in
  careful env1 1011 st more /\ (exists t, in_force st "192.0.2.3" t /\ still_runs env1 (clock_after 1011 more) t) /\ p_pend st = [] /\ never_lifted env1 st more "192.0.2.3"
  /\ banned (p_run env1 st more) = [("192.0.2.3", 4602)].
Proof.
  cbn zeta. split; [apply carefulb_ok; vm_compute; reflexivity|]. split. { eexists. split; [left; vm_compute; reflexivity|]. right. vm_compute. reflexivity. }
  split; [vm_compute; reflexivity|]. split; [|vm_compute; reflexivity].
  cbn [never_lifted skipn firstn life app lifts]. repeat (split; [exact (fun H => H)|]). split; [|exact I]. vm_compute. intros [[H|[]]|[]]. discriminate.
Qed.

(** ** What [careful] leaves out *)
(** A ban that is lifted before the observer has stored it is stored afterwards, and comes back with the
    next restart. *)
Theorem C67_unban_before_store_refuted : exists ops id now, let st := p_run env1 (p_first env1 900) ops in
  p_pend st = [] /\ banned st = [] /\ map t_id (brought_back env1 st now) = [id].
Proof. exists [PBan "192.0.2.1" 1000 []; PUnban ["192.0.2.1"] false; PObserve 1001 None], "192.0.2.1", 1100. vm_compute. repeat split. Qed.
(** An ID that is unbanned while its restored ban still waits in the jail's queue is banned all the same. *)
Theorem C67_unban_waiting_refuted : exists ops id now, let st := p_run env1 (p_first env1 900) ops in
  banned st = [] /\ map t_id (as_queue (p_acts st)) = [id] /\
  banned (p_run env1 st [PUnban [id] false; PTake now []]) = [(id, 1600)] /\ brought_back env1 (p_run env1 st [PUnban [id] false; PTake now []]) now = [].
Proof. exists [PBan "192.0.2.1" 1000 []; PObserve 1001 None; PRestart 1100], "192.0.2.1", 1101. vm_compute. repeat split. Qed.
(** A further ban of a banned ID makes the running ban end later, but this is not stored: after a restart
    the ban ends when it first should have. *)
Theorem C67_prolonged_refuted : exists ops id now, let st := p_run env1 (p_first env1 900) ops in
  p_pend st = [] /\ banned st = [(id, 2100)] /\ now < 2100 /\ brought_back env1 st now = [].
Proof. exists [PBan "192.0.2.1" 1000 []; PObserve 1001 None; PBan "192.0.2.1" 1500 []], "192.0.2.1", 1650. vm_compute. repeat split. Qed.
(** A ban that the observer has not stored when the server dies is lost. *)
Theorem C67_crash_before_store_refuted : exists ops id now, let st := p_run env1 (p_first env1 900) ops in
  careful env1 900 (p_first env1 900) ops /\ banned st = [(id, 1600)] /\ now < 1600 /\ brought_back env1 st now = [].
Proof. exists [PBan "192.0.2.1" 1000 []], "192.0.2.1", 1001. split; [apply carefulb_ok; vm_compute; reflexivity|]. vm_compute. repeat split. Qed.

Print Assumptions C67_restart.
Print Assumptions C67_survives.
Print Assumptions C67_bans_again.
Print Assumptions C67_unban_before_store_refuted.
Print Assumptions C67_unban_waiting_refuted.
Print Assumptions C67_prolonged_refuted.
Print Assumptions C67_crash_before_store_refuted.
