(** C65, C66: a whole jail, from its log to the calls of its actions. *)
From Verif Require Import Base Ticket_Model FailManager_Model Filter_Model Filter_Spec Filter_Count BanManager_Model BanManager_Spec BanManager_Proofs Actions_Model Actions_Spec Actions_Proofs Actions_Proofs2 Actions_Props Jail_Model Jail_Spec.
From Verif Require Jail_Proofs Jail_Proofs2.
Import Jail_Proofs2.
Require Import ZifyBool ZifyNat.

(** ** C65 *)
(** Whatever the history of a jail - lines, attempts reported by clients, looks of the observer, rounds
    of the actions, commands, in any order, whatever calls raise - the number of times an action has
    been asked to ban an ID, times maxretry, is at most the number of failures found of this ID, plus
    what the observer has added for known offenders; bans restored from the database and bans by command
    come on top. *)
Theorem C65_ban_has_cause orc sub a R ops j evs n id : fresh_acts a -> as_queue a = [] -> 0 <= R -> sane_jail ops -> maxretry_from R ops -> jail_run orc sub (jail_init a) ops = (j, evs) ->
  R * ban_calls n id (as_trace (j_acts j)) <= total id (jail_found ops evs) + extra id ops + R * (restored id ops + commanded id ops).
Proof. apply Jail_Proofs.jail_causes. Qed.
Lemma calls_in n id tr r : In (CBan n id, r) tr -> 1 <= ban_calls n id tr.
Proof.
  assert (P : forall tr, 0 <= ban_calls n id tr) by (induction tr0 as [|[[] x] tr0 IH]; cbn [ban_calls]; try lia; destruct (_ && _); lia).
  induction tr as [|[c x] tr IH]; [intros []|]. intros [H|I].
  - injection H as -> ->. cbn [ban_calls]. rewrite !eqb_refl. cbn [andb]. specialize (P tr). lia.
  - specialize (IH I). destruct c; cbn [ban_calls]; try lia. destruct (_ && _); lia.
Qed.
(** In particular no action is asked to ban an ID that never failed, was neither restored nor banned by
    command, and that the observer was not told about. *)
Theorem C65_no_cause_no_ban orc sub a ops j evs n id r : fresh_acts a -> as_queue a = [] -> sane_jail ops -> maxretry_from 1 ops -> jail_run orc sub (jail_init a) ops = (j, evs) ->
  total id (jail_found ops evs) = 0 -> extra id ops = 0 -> restored id ops = 0 -> commanded id ops = 0 -> ~ In (CBan n id, r) (as_trace (j_acts j)).
Proof.
  intros F Q S M E T X Rs Cm I. apply calls_in in I. pose proof (C65_ban_has_cause orc sub a 1 ops j evs n id F Q ltac:(lia) S M E). lia.
Qed.
(** The actions of a jail see a history of their own: the rounds and commands, with tickets put into
    their queue in between.  So all that is proved of the actions alone (C11 - C17, C53, C54) holds in
    every history of the whole jail. *)
Theorem C65_actions_of_the_jail orc sub a ops j evs : jail_run orc sub (jail_init a) ops = (j, evs) ->
  exists aops, j_acts j = as_run orc sub a aops /\ filter (fun o => negb (is_put o)) aops = filter (fun o => negb (is_put o)) (acts_part ops).
Proof. intros E. apply run_acts in E. exact E. Qed.
(** For example: the firewall of a plain action holds exactly the banned IDs, at every moment. *)
Theorem C65_firewall orc sub a ops j evs name act id : quiet_checks orc -> fresh_acts a -> dget name (as_actions a) = Some act -> plain act -> jail_run orc sub (jail_init a) ops = (j, evs) ->
  In name (action_names (j_acts j)) -> (fw_after name id (as_trace (j_acts j)) = Opened <-> is_banned id (j_acts j)).
Proof.
  intros Qc F G P E I. destruct (C65_actions_of_the_jail _ _ _ _ _ _ E) as (aops & A & _). rewrite A in *.
  destruct (C12_ban_unban_alternate orc sub a aops name act id Qc F G P) as (_ & H & _). now apply H.
Qed.

(** ** C66 *)
Lemma fresh_wfj orc sub a ops j evs : fresh_acts a -> jail_run orc sub (jail_init a) ops = (j, evs) -> wfj j.
Proof. intros F E. destruct (C65_actions_of_the_jail _ _ _ _ _ _ E) as (aops & A & _). unfold wfj. rewrite A. now apply wf_fresh. Qed.
(** A ticket that waits at place [p] of the queue (0 is the first) of a jail, after whatever history: as
    long as nobody gives a command, after more than [p] rounds that look at the queue its ID is banned,
    even if rounds raise, whatever lines are read and tickets are queued meanwhile - provided that the
    ban is not over before; and ten times as fast if no round raises.  The ban then ends no earlier than
    the ticket says. *)
Theorem C66_waiting_ban_served orc sub a ops0 j evs0 ops j' evs p tk : fresh_acts a -> jail_run orc sub (jail_init a) ops0 = (j, evs0) ->
  jail_run orc sub j ops = (j', evs) -> Forall no_command ops ->
  (forall now, In now (round_times ops) -> now <= MAX_TIME /\ overb (bm_time (as_bm (j_acts j))) now tk = false) ->
  nth_error (as_queue (j_acts j)) p = Some tk -> (p < ready_rounds ops)%nat \/ rounds_fine orc sub j ops /\ (p < 10 * ready_rounds ops)%nat ->
  is_banned (t_id tk) (j_acts j') /\
  exists t, dget (t_id tk) (bm_list (as_bm (j_acts j'))) = Some t /\ Z.min MAX_TIME (end_of_ban (bm_time (as_bm (j_acts j))) tk) <= end_of_ban (bm_time (as_bm (j_acts j'))) t.
Proof.
  intros F E0 E C Tm N P. pose proof (fresh_wfj _ _ _ _ _ _ F E0) as W.
  destruct (calm_served orc sub tk ops j j' evs p W C) as (t & G & LM & L); auto.
  { apply Forall_forall. intros now I. destruct (Tm now I) as [H1 H2]. apply over_eob in H2; [|exact H1]. unfold T_of, eob. lia. }
  split.
  - unfold is_banned, banned_ids. apply ban_list_In. rewrite dmem_dget, G. reflexivity.
  - exists t. split; [exact G|]. exact L.
Qed.
(** And then it is in the firewall of every plain action. *)
Theorem C66_waiting_ban_in_firewall orc sub a ops0 j evs0 ops j' evs p tk name act : quiet_checks orc -> fresh_acts a -> dget name (as_actions a) = Some act -> plain act ->
  jail_run orc sub (jail_init a) ops0 = (j, evs0) -> jail_run orc sub j ops = (j', evs) -> Forall no_command ops ->
  (forall now, In now (round_times ops) -> now <= MAX_TIME /\ overb (bm_time (as_bm (j_acts j))) now tk = false) ->
  nth_error (as_queue (j_acts j)) p = Some tk -> (p < ready_rounds ops)%nat \/ rounds_fine orc sub j ops /\ (p < 10 * ready_rounds ops)%nat ->
  In name (action_names (j_acts j')) -> fw_after name (t_id tk) (as_trace (j_acts j')) = Opened.
Proof.
  intros Qc F G P E0 E C Tm N Pl I. pose proof (C66_waiting_ban_served _ _ _ _ _ _ _ _ _ _ _ F E0 E C Tm N Pl) as [B _].
  assert (E' : exists ev, jail_run orc sub (jail_init a) (ops0 ++ ops) = (j', ev)).
  { clear - E0 E. revert E0. generalize (jail_init a) as j0. revert evs0. induction ops0 as [|o ops0 IH]; intros evs0 j0 E0; cbn [jail_run app] in *; [injection E0 as -> _; eauto|].
    destruct (jail_step orc sub j0 o) as [j1 e]. destruct (jail_run orc sub j1 ops0) as [j2 es] eqn:E2. injection E0 as -> <-. destruct (IH _ _ E2) as [ev ->]. eauto. }
  destruct E' as [ev E']. now apply (C65_firewall _ _ _ _ _ _ _ _ _ Qc F G P E').
Qed.

(** ** Examples *)
Local Open Scope string_scope.
Local Open Scope list_scope.
Definition world1 (now : Z) : fworld := mkFW (Ignore_Model.mkW now [] (fun _ => []) (fun _ => []) (fun _ => Some 1)) (fun _ => None) (fun _ => []) (fun _ _ _ t => t).
Definition attempt (now : Z) (id : string) : jail_op := JFilter (FAttempt (world1 now) (Text.tx id) []).
(** 192.0.2.1 fails three times and is banned; 192.0.2.2 is known from three bans and is banned with its
    first failure, which the observer counts as five (at most maxretry); 192.0.2.3 fails twice only;
    192.0.2.4 is banned by command, 192.0.2.5 was banned before the start. *)
Definition day : list jail_op :=
  [JActs (OPut (with_restored true (new_ticket "192.0.2.5" 900 [] 0)));
   attempt 1000 "192.0.2.1"; attempt 1001 "192.0.2.1"; attempt 1002 "192.0.2.2"; attempt 1003 "192.0.2.3"; JKnown true true (Some [(3, 500)]) (Stored "192.0.2.2" 0) 1004; JKnown true true (Some []) (Stored "192.0.2.1" 0) 1004;
   attempt 1005 "192.0.2.1"; attempt 1006 "192.0.2.3"; JActs (OBanIP ["192.0.2.4"] 1007)].
Definition night : list jail_op := [attempt 1008 "192.0.2.6"; JActs (ORound false 1008 0); JActs (ORound true 1009 0); attempt 1010 "192.0.2.1"].
Example C65_demo : let '(j, evs) := jail_run orcF subNone (jail_init jail0) (day ++ night) in
  fresh_acts jail0 /\ sane_jail (day ++ night) /\ maxretry_from 3 (day ++ night) /\ maxretry_from 1 (day ++ night) /\
  map (fun id => (ban_calls "A" id (as_trace (j_acts j)), total id (jail_found (day ++ night) evs), extra id (day ++ night), restored id (day ++ night), commanded id (day ++ night)))
    ["192.0.2.1"; "192.0.2.2"; "192.0.2.3"; "192.0.2.4"; "192.0.2.5"; "192.0.2.7"]
  = [(1, 4, 0, 0, 0); (1, 1, 4, 0, 0); (0, 2, 0, 0, 0); (1, 0, 0, 0, 1); (1, 0, 0, 1, 0); (0, 0, 0, 0, 0)].
Proof.
  destruct (jail_run orcF subNone (jail_init jail0) (day ++ night)) as [j evs] eqn:E. vm_compute in E. injection E as <- <-.
  split. { split; [|split; [split; reflexivity|reflexivity]]. constructor; [intros [H|[]]; discriminate|]. constructor; [intros []|constructor]. }
  split. { split; intros; cbn in H; intuition discriminate. }
  split. { split; [lia|]. intros; cbn in H; intuition discriminate. }
  split. { split; [lia|]. intros; cbn in H; intuition discriminate. }
  vm_compute. reflexivity.
Qed.
Example C66_demo : let '(j, _) := jail_run orcF subNone (jail_init jail0) day in let '(j', _) := jail_run orcF subNone j night in
  map t_id (as_queue (j_acts j)) = ["192.0.2.5"; "192.0.2.2"; "192.0.2.1"] /\ (exists tk, nth_error (as_queue (j_acts j)) 2 = Some tk /\ forall now, In now (round_times night) -> now <= MAX_TIME /\ overb (bm_time (as_bm (j_acts j))) now tk = false) /\
  Forall no_command night /\ rounds_fine orcF subNone j night /\ (2 < 10 * ready_rounds night)%nat /\ banned_ids (j_acts j') = ["192.0.2.4"; "192.0.2.5"; "192.0.2.2"; "192.0.2.1"] /\
  fw_after "A" "192.0.2.1" (as_trace (j_acts j')) = Opened /\ quiet_checks orcF /\ plain actA.
Proof.
  destruct (jail_run orcF subNone (jail_init jail0) day) as [j evs] eqn:E. vm_compute in E. injection E as <- <-. destruct (jail_run orcF subNone _ night) as [j' evs'] eqn:E. vm_compute in E. injection E as <- <-.
  split; [vm_compute; reflexivity|]. split. { eexists. split; [vm_compute; reflexivity|]. intros now I. cbn in I. destruct I as [<-|[<-|[]]]; vm_compute; split; congruence. }
  split; [repeat constructor|]. split. { cbn [rounds_fine night]. repeat (split; [first [exact I|vm_compute; discriminate]|]). exact I. }
  split; [cbn; lia|]. split; [vm_compute; reflexivity|]. split; [vm_compute; reflexivity|]. split; [intros tr n; reflexivity|]. split; auto.
Qed.

Print Assumptions C65_ban_has_cause.
Print Assumptions C65_no_cause_no_ban.
Print Assumptions C65_actions_of_the_jail.
Print Assumptions C65_firewall.
Print Assumptions C66_waiting_ban_served.
Print Assumptions C66_waiting_ban_in_firewall.
