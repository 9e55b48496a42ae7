(** * C105 and C106: the thread of the observer and its timers *)
From Verif Require Import Base Wake_Model Wake_Spec Wake_Proofs.

(** ** C105: whoever adds an event wakes the observer *)

(** A sleeping observer has nothing to do: when every call that was under way has returned, whatever was the schedule of the threads that add events, pause,
    resume and stop, no event that was added with [add] waits while the observer sleeps. *)
Theorem C105_no_lost_wakeup : forall l, only_forced l -> let s := run init l in
  in_use s -> calls s = [] -> asleep s -> ~ announced s.
Proof.
  intros l F s (A & N & P) C [W G] An. destruct (inv_run l init F inv_init) as (I1 & _). fold s in I1. destruct (I1 N P (or_intror W) An) as [X|X]; [congruence|].
  rewrite C in X. inversion X.
Qed.
(** And with calls still under way, one of them is going to wake it *)
Theorem C105_wakeup_coming : forall l, only_forced l -> let s := run init l in
  in_use s -> asleep s -> announced s -> exists c, In c (calls s) /\ (c = Check \/ c = Read \/ c = Ring).
Proof.
  intros l F s (A & N & P) [W G] An. destruct (inv_run l init F inv_init) as (I1 & _). fold s in I1. destruct (I1 N P (or_intror W) An) as [X|X]; [congruence|].
  apply Exists_exists in X. exact X.
Qed.
(** Without any help of time: from there the thread alone executes the current event and all that wait, in their order, whether or not they raise. *)
Theorem C105_drained : forall l, only_forced l -> let s := run init l in
  in_use s -> calls s = [] -> announced s ->
  exists k, forall raises, length raises = k -> let s' := run s (map Step raises) in
    queue s' = [] /\ map fst (done s') = map fst (done s) ++ current s ++ map snd (queue s).
Proof. intros l F s U C A. apply alone; auto. apply (inv_run l init F inv_init). Qed.
(** As long as nobody stops it: executed, being executed and waiting are exactly what was added, in the order of adding. *)
Theorem C105_order : forall l, (forall ev f, ~ In (StopReq ev f) l) -> let s := run init l in
  map fst (done s) ++ current s ++ map snd (queue s) = flat_map added l.
Proof. intros l H s. unfold s. rewrite order_run by (try discriminate; auto). reflexivity. Qed.
Definition C105_demo_l : list label :=
  [Step false; Step false; Step false; Step false; Add 7; Call 0; Call 0; AddWn 8; Call 0].
Example C105_demo : let s := run init C105_demo_l in
  only_forced C105_demo_l /\ in_use s /\ calls s = [] /\ announced s /\ thread s = Wait /\
  done (run s (map Step (repeat true 9))) = [(7, true); (8, true)]%nat.
Proof. cbv zeta. repeat split; try reflexivity. - intros ev H. cbn in H. repeat destruct H as [H|H]; try discriminate; auto. - exists 7%nat. now left. Qed.
Example C105_demo_asleep : let s := run init (firstn 5 C105_demo_l) in in_use s /\ asleep s /\ announced s /\ calls s = [Check].
Proof. cbv zeta. repeat split; try reflexivity. exists 7%nat. now left. Qed.

(** Paused, at most the event that was already taken up is executed, whoever does what meanwhile *)
Theorem C105_paused : forall s l, paused s = true -> ~ In (Assign false) (calls s) -> ~ In (SetPaused false) l ->
  (length (done (run s l)) <= S (length (done s)))%nat.
Proof. intros s l P C N. pose proof (pause_run l s P C N) as H. unfold pend in H. destruct (thread s), (thread (run s l)); lia. Qed.
Example C105_paused_demo : let s := run init [Add 7; Add 8; Step false; Step false; SetPaused true; Call 2] in
  paused s = true /\ ~ In (Assign false) (calls s) /\ done (run s (map Step (repeat false 20))) = [(7, false)]%nat.
Proof. cbv zeta. repeat split; try reflexivity. cbn. intuition discriminate. Qed.
(** Stopped, the thread ends after at most nine of its own steps (it may sleep in one of them), and executes at most one more event *)
Theorem C105_ends : forall s raises, active s = false -> paused s = true -> (9 <= length raises)%nat ->
  let s' := run s (rounds raises) in thread s' = Gone /\ (length (done s') <= S (length (done s)))%nat.
Proof.
  intros s rs A P L s'. destruct (ends rs s A P) as [R D]. fold (rounds rs) in R, D. fold s' in R, D. split.
  - assert (X : (rank (thread s) <= 9)%nat) by (destruct (thread s); cbn; lia). destruct (thread s'); cbn [rank] in R; try lia. reflexivity.
  - unfold pend in D. destruct (thread s), (thread s'); lia.
Qed.
(** and that is what a forced stop leads to *)
Theorem C105_forced : forall s ev, stop s = None -> active s = true -> notify s = true ->
  let s' := run s [StopReq ev true; Stop; Stop; Stop; Stop] in active s' = false /\ paused s' = true /\ stop s' = None /\ done s' = done s.
Proof. intros [q d f n p a t c st] ev H A N. cbn in H, A, N. subst. cbn. rewrite orb_true_r. cbn. auto. Qed.
Example C105_ends_demo : let s := run init (C105_demo_l ++ [StopReq 9 true; Stop; Stop; Stop; Stop]) in
  active s = false /\ paused s = true /\ thread s = Wait /\ length (rounds (repeat false 9)) = 18%nat.
Proof. vm_compute. auto. Qed.

(** A wake-up can be lost by a stop that was not forced and gave up: an event added between its request and its giving up finds no one to notify, and once the
    stop has restored the notification the observer sleeps on it with an event in its queue, until the next event is added or its sleep ends. *)
Definition C105_lost_l : list label :=
  [Step false; Step false; Step false; Step false; StopReq 9 false; Step false; Step false; Step false; Step false; Step false; Step false; Step false; Step false;
   Add 7; Call 0; Call 0; Stop; Step false].
Theorem C105_lost_refuted : exists l, let s := run init l in in_use s /\ calls s = [] /\ stop s = None /\ asleep s /\ announced s.
Proof. exists C105_lost_l. cbv zeta. repeat split; try reflexivity. exists 7%nat. now left. Qed.

(** ** C106: timers, and the purging of the database *)

(** A name has at most one timer that will fire, however often it is set *)
Theorem C106_one_per_name : forall t0 b l name, (length (armed_as name (trun (tinit t0 b) l)) <= 1)%nat.
Proof. intros. apply one_named, tinv_run, tinv_init. Qed.
(** Setting one cancels that of the same name only *)
Theorem C106_cancels : forall t0 b l name start ev t, let s := trun (tinit t0 b) l in let s' := add_named_timer name start ev s in
  In t (armed s') <-> (In t (armed s) /\ t_name t <> Some name) \/ t = mkT (next_id s) (Some name) (now s + start) ev.
Proof.
  intros t0 b l name start ev t s s'. destruct (named_armed name start ev s) as (a & Ea & Ia & _); [apply tinv_run, tinv_init|].
  unfold s'. rewrite Ea, in_app_iff, Ia. cbn [In]. intuition.
Qed.
(** As long as no purge raised, exactly one is to come, whatever else happens; *)
Theorem C106_purge_to_come : forall t0 b l, Forall others l -> let s := trun (tinit t0 b) l in
  no_purge_raised s -> to_come s = 1%nat.
Proof.
  intros t0 b l O s H. destruct (pinv_run l _ O (pinv_init t0 b)) as (_ & _ & C & _). fold s in C. rewrite C.
  destruct (existsb snd (purged s)) eqn:E; [|reflexivity]. apply existsb_exists in E as ((z & r) & I & X). cbn in X. subst r. now destruct (H z).
Qed.
(** if it waits for its timer, that is due within an hour, *)
Theorem C106_soon : forall t0 b l t, Forall others l -> let s := trun (tinit t0 b) l in
  In t (armed s) -> t_event t = Purge -> t_due t <= now s + 3600.
Proof. intros t0 b l t O s. apply soon_run; auto. cbn. intros u [<-|[]] _. cbn. unfold purge_interval. lia. Qed.
(** and purges are at least one hour apart. *)
Theorem C106_an_hour : forall t0 b l, Forall others l -> let s := trun (tinit t0 b) l in an_hour_apart (map fst (purged s)).
Proof. intros t0 b l O s. apply (pinv_run l _ O (pinv_init t0 b)). Qed.
(** A purge with the timer fired is done by the next step, and the next one is set for one hour later *)
Theorem C106_purge : forall t0 b l q, Forall others l -> let s := trun (tinit t0 b) l in waiting s = Purge :: q ->
  let s' := tstep s (TExec false) in
  purged s' = purged s ++ (if db s then [(now s, false)] else []) /\ waiting s' = q /\
  exists i, In (mkT i (Some "DB_PURGE"%string) (now s + 3600) Purge) (armed s').
Proof.
  intros t0 b l q O s W s'. unfold s'. cbn [tstep]. rewrite W. unfold db_purge. cbn [db]. destruct (db s); cbn [andb]; (split; [cbn; now rewrite ?app_nil_r|]; split; [reflexivity|]);
    eexists; unfold add_named_timer; cbn [armed]; apply in_app_iff; right; left; reflexivity.
Qed.
Definition C106_demo_l : list tlabel := [TNamed "x" 5 (Other 1); TTick 3600; TFire 0; TNamed "x" 9 (Other 2); TFire 1; TExec false; TTick 3600; TFire 3; TExec false].
Example C106_demo : let s := trun (tinit 100 true) C106_demo_l in
  Forall others C106_demo_l /\ no_purge_raised s /\ purged s = [(3700, false); (7300, false)] /\ to_come s = 1%nat /\ length (armed_as "x" s) = 1%nat.
Proof. cbv zeta. split; [repeat constructor; discriminate|]. split; [|auto]. intros t H. assert (E : purged (trun (tinit 100 true) C106_demo_l) = [(3700, false); (7300, false)]) by reflexivity. rewrite E in H.
  destruct H as [H|[H|[]]]; discriminate. Qed.
(** One purge that raises is the last: nothing sets the timer again, so the rows of expired bans stay from then on, until the server is started again. *)
Theorem C106_last_refuted : exists l, Forall others l /\ let s := trun (tinit 0 true) l in
  to_come s = 0%nat /\ forall l', Forall others l' -> purged (trun s l') = purged s.
Proof.
  exists [TTick 3600; TFire 0; TExec true]. split; [repeat constructor|]. split; [reflexivity|]. intros l' O. apply lost_run; auto.
  apply pinv_run; [repeat constructor|apply pinv_init].
Qed.

Print Assumptions C105_no_lost_wakeup.
Print Assumptions C105_wakeup_coming.
Print Assumptions C105_drained.
Print Assumptions C105_order.
Print Assumptions C105_paused.
Print Assumptions C105_ends.
Print Assumptions C105_forced.
Print Assumptions C105_lost_refuted.
Print Assumptions C106_one_per_name.
Print Assumptions C106_cancels.
Print Assumptions C106_purge_to_come.
Print Assumptions C106_soon.
Print Assumptions C106_an_hour.
Print Assumptions C106_purge.
Print Assumptions C106_last_refuted.
