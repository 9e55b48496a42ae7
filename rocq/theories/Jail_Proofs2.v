(** Proofs about a whole jail: waiting bans are served. *)
From Verif Require Import Base Ticket_Model FailManager_Model Filter_Model Filter_Spec BanManager_Model BanManager_Spec BanManager_Proofs
  Actions_Model Actions_Spec Actions_Proofs Actions_Proofs2 Jail_Model Jail_Spec.
Require Import ZifyBool ZifyNat.

(** ** Ends of bans *)
Definition eob (s : acts) (t : ticket) : Z := end_of_ban (bm_time (as_bm s)) t.
Definition ends (s s' : acts) : Prop := bm_time (as_bm s') = bm_time (as_bm s) /\
  forall id t, dget id (bm_list (as_bm s)) = Some t -> exists t', dget id (bm_list (as_bm s')) = Some t' /\ Z.min MAX_TIME (eob s t) <= eob s t'.
Definition lasts (id : string) (T : Z) (s : acts) : Prop := exists t, dget id (bm_list (as_bm s)) = Some t /\ T <= MAX_TIME /\ T <= eob s t.
Lemma ends_same s s' : as_bm s' = as_bm s -> ends s s'.
Proof. intros E. split; [now rewrite E|]. intros id t G. exists t. rewrite E. split; [exact G|lia]. Qed.
Lemma ends_trans a b c : ends a b -> ends b c -> ends a c.
Proof.
  intros [T1 G1] [T2 G2]. split; [congruence|]. intros id t G. destruct (G1 _ _ G) as (t1 & H1 & L1). destruct (G2 _ _ H1) as (t2 & H2 & L2). exists t2. split; [exact H2|]. unfold eob in *. rewrite T1 in L2. lia.
Qed.
Lemma lasts_ends id T s s' : ends s s' -> lasts id T s -> lasts id T s'.
Proof. intros [E G] (t & H & LM & L). destruct (G _ _ H) as (t' & H' & L'). exists t'. split; [exact H'|]. split; [exact LM|]. unfold eob in *. rewrite E. lia. Qed.
Lemma ends_mark id s : ends s (mark_banned id s).
Proof.
  unfold mark_banned. destruct (dget id (bm_list (as_bm s))) as [t|] eqn:G; [|now apply ends_same]. split; [reflexivity|]. intros i u H. cbn [as_bm with_bm bm_with_list bm_list]. rewrite dget_dset.
  destruct (eqb_spec i id) as [->|_]; [|exists u; split; [exact H|lia]]. eexists. split; [reflexivity|]. rewrite G in H. injection H as <-. destruct (as_epoch s =? 0); unfold eob, end_of_ban, get_bantime; cbn; lia.
Qed.
Lemma ends_add bm tk now bm' r : add_ban bm tk now = (bm', r) -> bm_time bm' = bm_time bm /\
  (forall id t, dget id (bm_list bm) = Some t -> exists t', dget id (bm_list bm') = Some t' /\ Z.min MAX_TIME (end_of_ban (bm_time bm) t) <= end_of_ban (bm_time bm) t') /\
  (end_of_ban (bm_time bm) tk >= now -> exists t, dget (t_id tk) (bm_list bm') = Some t /\ Z.min MAX_TIME (end_of_ban (bm_time bm) tk) <= end_of_ban (bm_time bm) t) /\
  (r = AExpired -> end_of_ban (bm_time bm) tk < now).
Proof.
  unfold add_ban. intros E. destruct (_ <? now) eqn:X.
  { injection E as <- <-. split; [reflexivity|]. split; [intros id t G; exists t; split; [exact G|lia]|]. split; [lia|intros _; lia]. }
  destruct (dget (t_id tk) (bm_list bm)) as [old|] eqn:G.
  - destruct (_ >? _) eqn:Y; injection E as <- <-; (split; [reflexivity|]).
    + set (old' := with_bantime _ old). assert (L : Z.min MAX_TIME (end_of_ban (bm_time bm) tk) <= end_of_ban (bm_time bm) old').
      { unfold old', end_of_ban, prolonged_time in *. cbn [get_bantime t_bantime with_bantime t_time]. clear X Y. fold (get_bantime (bm_time bm) tk).
        unfold get_bantime in *. cbn [t_bantime with_bantime t_time] in *. set (b := match t_bantime tk with Some b => b | None => bm_time bm end) in *.
        destruct (b =? -1) eqn:B; [rewrite B; lia|]. destruct (t_time tk - t_time old >? 0) eqn:D.
        - destruct (b + (t_time tk - t_time old) =? -1) eqn:M; lia.
        - rewrite B. lia. }
      cbn [bm_with_list bm_list]. split; [|split].
      * intros id t H. rewrite dget_dset. destruct (eqb_spec id (t_id tk)) as [->|_]; [|exists t; split; [exact H|lia]]. eexists. split; [reflexivity|]. rewrite G in H. injection H as <-. lia.
      * intros _. rewrite dget_dset_same. eexists. split; [reflexivity|exact L].
      * discriminate.
    + split; [intros id t H; exists t; split; [exact H|lia]|]. split; [|discriminate]. intros _. exists old. split; [exact G|lia].
  - injection E as <- <-. cbn [bm_time bm_list]. split; [reflexivity|]. split; [|split; [|discriminate]].
    + intros id t H. rewrite dget_dset. destruct (eqb_spec id (t_id tk)) as [->|_]; [congruence|]. exists t. split; [exact H|lia].
    + intros _. rewrite dget_dset_same. eexists. split; [reflexivity|]. unfold end_of_ban, get_bantime. cbn. lia.
Qed.

Section Acts2.
Context (orc : oracle).
Lemma ends_act n c s s' r : act_call orc n c s = (s', r) -> ends s s'.
Proof. intros E. apply act_call_spec in E as ((B & _) & _). now apply ends_same. Qed.
Lemma ends_call_all mk names s : ends s (call_all orc mk names s).
Proof. destruct (call_all_calls orc mk names s) as ((B & _) & _). now apply ends_same. Qed.
Lemma ends_unban_each names l : forall s, ends s (unban_each orc names l s).
Proof. induction l as [|t l IH]; intros s; cbn [unban_each]; [now apply ends_same|]. eapply ends_trans; [|apply IH]. apply ends_call_all. Qed.
Lemma ends_check names : forall s s' b, check_loop orc names s = (s', b) -> ends s s'.
Proof.
  induction names as [|n names IH]; cbn [check_loop]; intros s s' b E; [injection E as <- _; now apply ends_same|]. destruct (act_call orc n (CCheck n) s) as [s1 r] eqn:E1. apply ends_act in E1.
  destruct (r_raise r); [injection E as <- _; exact E1|]. eapply ends_trans; [exact E1|eauto].
Qed.
Lemma ends_reban id names s s' c : reban orc id names s = (s', c) -> ends s s'.
Proof.
  unfold reban. set (nm := match names with [] => _ | _ => names end). assert (L : forall nm s s' b, reban_loop orc id nm s = (s', b) -> ends s s').
  { clear. induction nm as [|n names IH]; cbn [reban_loop]; intros s s' b E; [injection E as <- _; now apply ends_same|]. destruct (act_call orc n (CReban n id) s) as [s1 r] eqn:E1. apply ends_act in E1.
    destruct (r_raise r); [injection E as <- _; exact E1|]. eapply ends_trans; [exact E1|eauto]. }
  destruct (reban_loop orc id nm s) as [s1 []] eqn:E; apply L in E; intros X; injection X as <- _; [|exact E]. eapply ends_trans; [exact E|apply ends_mark].
Qed.
Lemma ends_one tk now ra s s' r : check_ban_one orc tk now ra s = (s', r) -> ends s s' /\ (eob s tk >= now -> lasts (t_id tk) (Z.min MAX_TIME (eob s tk)) s').
Proof.
  unfold check_ban_one. destruct (ban_begin orc tk now s) as [s1 ar] eqn:B. unfold ban_begin in B. destruct (add_ban (as_bm s) (with_isban true tk) now) as [bm ar'] eqn:A.
  apply ends_add in A as (T & G & N & X). change (end_of_ban (bm_time (as_bm s)) (with_isban true tk)) with (eob s tk) in *. change (t_id (with_isban true tk)) with (t_id tk) in *.
  assert (S1 : as_bm s1 = bm /\ ar = ar'). { destruct ar'; [injection B as <- <-; auto|destruct (t_restored tk); injection B as <- <-; auto|injection B as <- <-; auto|injection B as <- <-; auto]. }
  destruct S1 as [S1 ->]. assert (E1 : ends s s1). { split; [congruence|]. intros id t H. rewrite S1. exact (G id t H). }
  assert (K : forall s2, ends s1 s2 -> ends s s2 /\ (eob s tk >= now -> lasts (t_id tk) (Z.min MAX_TIME (eob s tk)) s2)).
  { intros s2 E2. split; [eapply ends_trans; eauto|]. intros H. apply (lasts_ends _ _ s1 s2 E2). destruct (N H) as (t & Gt & L). exists t. rewrite S1. split; [exact Gt|]. split; [lia|]. unfold eob at 2. rewrite S1, T. exact L. }
  intros E. assert (Old : forall r', match dget (t_id tk) (bm_list (as_bm s1)) with
      | None => (s1, None)
      | Some b =>
          if t_banned b then
            let diftm := t_time tk - t_time b in
            let check := (t_epoch b =? as_epoch s1) && (diftm >? 3) && match ra with [] => true | _ => false end && (now >? as_last s1 + 3) in
            let '(s, ok) := if check then check_loop orc (checkers (as_actions s1)) (with_last now s1) else (s1, true) in
            if ok then
              if t_epoch b <? as_epoch s then
                match (match ra with [] => reban_acts (t_epoch b) (as_actions s) | _ => Some ra end) with
                | None => (s, None)
                | Some ra => let '(s, c) := reban orc (t_id tk) ra s in (s, Some (c, ra))
                end
              else (s, Some (0%nat, ra))
            else (s, None)
          else let '(s, c) := reban orc (t_id tk) [] s1 in (s, Some (c, ra))
      end = (s', r') -> ends s1 s').
  { clear. intros r' E. destruct (dget (t_id tk) (bm_list (as_bm s1))) as [b|]; [|injection E as <- _; now apply ends_same]. destruct (t_banned b).
    - cbn zeta in E. match type of E with (let '(_, _) := ?x in _) = _ => destruct x as [s2 ok] eqn:C end.
      assert (E2 : ends s1 s2). { destruct (_ && _) in C; [|injection C as <- _; now apply ends_same]. apply ends_check in C. eapply ends_trans; [now apply ends_same|exact C]. }
      destruct ok; [|injection E as <- _; exact E2]. destruct (t_epoch b <? as_epoch s2); [|injection E as <- _; exact E2].
      match type of E with match ?x with Some _ => _ | None => _ end = _ => destruct x end; [|injection E as <- _; exact E2].
      destruct (reban orc (t_id tk) l s2) as [s3 c] eqn:R. injection E as <- _. apply ends_reban in R. eapply ends_trans; eauto.
    - destruct (reban orc (t_id tk) [] s1) as [s3 c] eqn:R. injection E as <- _. now apply ends_reban in R. }
  destruct ar'.
  - injection E as <- _. destruct (K s1 (ends_same _ _ eq_refl)) as [K1 _]. split; [exact K1|]. specialize (X eq_refl). lia.
  - injection E as <- _. apply K. unfold ban_actions. eapply ends_trans; [apply ends_call_all|apply ends_mark].
  - apply K. eapply Old; eauto.
  - apply K. eapply Old; eauto.
Qed.

Lemma ends_unban now n s s' k : wf_bm (as_bm s) -> check_unban orc now n s = (s', k) -> forall id T, now <= T -> lasts id T s -> lasts id T s'.
Proof.
  intros [Hd _] E id T HT (t & G & LM & L). unfold check_unban in E. destruct (unban_list (as_bm s) now n) as [bm l] eqn:U. injection E as <- _.
  apply (lasts_ends id T (with_bm bm s)); [apply ends_unban_each|]. destruct (unban_list_cases _ _ _ _ _ Hd U) as [(->&_)|(_&_&Lb&Tb&_)]; [exists t; auto|].
  exists t. cbn [as_bm with_bm]. split; [|split; [exact LM|]; unfold eob in *; cbn [as_bm with_bm]; now rewrite Tb].
  apply In_dget; [rewrite Lb; now apply dwf_drop_first|]. rewrite Lb. apply dget_In in G.
  assert (I : In (id, t) (filter (fun x => negb (expired (bm_time (as_bm s)) now x)) (bm_list (as_bm s)))). { apply filter_In. split; [exact G|]. unfold expired. cbn [snd]. unfold eob in L. lia. }
  rewrite <- (filter_neg_drop_first _ (Nat.max 1 n)) in I. now apply filter_In in I as [I _].
Qed.

(** one look at the queue *)
Lemma queue_serves now k : forall ra cnt s s' r, wf_bm (as_bm s) -> check_ban_queue orc k now ra cnt s = (s', r) -> ends s s' /\ wf_bm (as_bm s') /\
  exists m, as_queue s' = skipn m (as_queue s) /\ ((1 <= k)%nat -> as_queue s <> [] -> (1 <= m)%nat) /\ (r <> None -> (k <= m \/ length (as_queue s) <= m)%nat) /\
    forall tk, In tk (firstn m (as_queue s)) -> eob s tk >= now -> lasts (t_id tk) (Z.min MAX_TIME (eob s tk)) s'.
Proof.
  induction k as [|k IH]; intros ra cnt s s' r W E; cbn [check_ban_queue] in E.
  { injection E as <- <-. split; [now apply ends_same|]. split; [exact W|]. exists 0%nat. split; [reflexivity|]. split; [lia|]. split; [lia|]. intros tk []. }
  destruct (as_queue s) as [|tk q] eqn:Q. { injection E as <- <-. split; [now apply ends_same|]. split; [exact W|]. exists 0%nat. rewrite Q. split; [reflexivity|]. split; [congruence|]. split; [cbn; lia|]. intros t []. }
  destruct (check_ban_one orc tk now ra (with_queue q s)) as [s1 r1] eqn:E1. pose proof E1 as E1'. apply ends_one in E1' as [En La]. change (eob (with_queue q s) tk) with (eob s tk) in La.
  assert (En0 : ends s s1) by (eapply ends_trans; [|exact En]; now apply ends_same).
  apply check_ban_one_queue in E1 as [W1 Q1]; [|exact W]. cbn [with_queue as_queue] in Q1. change (t_id tk) with (t_id tk) in La.
  destruct r1 as [[c ra1]|].
  - destruct (IH _ _ _ _ _ W1 E) as (En2 & W2 & m & Qm & M1 & M2 & M3). split; [eapply ends_trans; eauto|]. split; [exact W2|]. exists (S m). rewrite Q1 in *. cbn [skipn firstn length]. split; [exact Qm|]. split; [lia|].
    split; [intros H; specialize (M2 H); lia|]. assert (Eo : forall t, eob s1 t = eob s t) by (intros t; unfold eob; now rewrite (proj1 En0)).
    intros t [<-|I] H; [now apply (lasts_ends _ _ s1 s' En2), La|]. specialize (M3 t I). rewrite Eo in M3. now apply M3.
  - injection E as <- <-. split; [exact En0|]. split; [exact W1|]. exists 1%nat. cbn [skipn firstn]. split; [exact Q1|]. split; [lia|]. split; [congruence|]. intros t [<-|[]] H. now apply La.
Qed.
(** one round *)
Lemma round_serves rd now c s s' r : wf_bm (as_bm s) -> main_round orc rd now c s = (s', r) -> bm_time (as_bm s') = bm_time (as_bm s) /\
  (forall id T, now <= T -> lasts id T s -> lasts id T s') /\
  exists m, as_queue s' = skipn m (as_queue s) /\ (rd = true -> as_queue s <> [] -> (1 <= m)%nat) /\ (rd = true -> r <> None -> (10 <= m \/ length (as_queue s) <= m)%nat) /\
    forall tk, In tk (firstn m (as_queue s)) -> now <= MAX_TIME -> eob s tk >= now -> lasts (t_id tk) (Z.min MAX_TIME (eob s tk)) s'.
Proof.
  intros W E. unfold main_round in E. destruct (if rd then check_ban orc now s else (s, Some 0%nat)) as [s1 r1] eqn:E1.
  assert (H1 : ends s s1 /\ wf_bm (as_bm s1) /\ exists m, as_queue s1 = skipn m (as_queue s) /\ (rd = true -> as_queue s <> [] -> (1 <= m)%nat) /\ (rd = true -> r1 <> None -> (10 <= m \/ length (as_queue s) <= m)%nat) /\
    forall tk, In tk (firstn m (as_queue s)) -> eob s tk >= now -> lasts (t_id tk) (Z.min MAX_TIME (eob s tk)) s1).
  { destruct rd; [|injection E1 as <- <-; split; [now apply ends_same|]; split; [exact W|]; exists 0%nat; split; [reflexivity|]; split; [discriminate|]; split; [discriminate|]; intros t []].
    unfold check_ban in E1. apply queue_serves in E1 as (A & B & m & C1 & C2 & C3 & C4); [|exact W]. split; [exact A|]. split; [exact B|]. exists m. split; [exact C1|]. split; [intros _; apply C2; unfold banPrecedence; lia|]. split; [intros _; exact C3|exact C4]. }
  destruct H1 as (En & W1 & m & Q & M1 & M2 & M3).
  assert (Un : forall n, let s2 := fst (check_unban orc now n s1) in bm_time (as_bm s2) = bm_time (as_bm s1) /\ as_queue s2 = as_queue s1 /\ forall id T, now <= T -> lasts id T s1 -> lasts id T s2).
  { intros n. destruct (check_unban orc now n s1) as [s2 k] eqn:U. cbn [fst]. split; [|split].
    - unfold check_unban in U. destruct (unban_list (as_bm s1) now n) as [bm l] eqn:X. injection U as <- _. rewrite (proj1 (ends_unban_each _ _ _)). cbn [as_bm with_bm]. destruct (unban_list_cases _ _ _ _ _ (proj1 W1) X) as [(->&_)|(_&_&_&Tb&_)]; auto.
    - pose proof (check_unban_queue orc now n s1) as CQ. rewrite U in CQ. exact CQ.
    - exact (ends_unban now n s1 s2 k W1 U). }
  destruct r1 as [bc|].
  - destruct (_ || _).
    + injection E as <- <-. match goal with |- context[check_unban orc now ?n s1] => destruct (Un n) as (U1 & U2 & U3) end. split; [rewrite U1; apply En|]. split; [intros id T H L; apply U3; [exact H|]; now apply (lasts_ends id T s s1)|].
      exists m. rewrite U2. split; [exact Q|]. split; [exact M1|]. split; [intros H _; apply M2; [exact H|discriminate]|]. intros t I HM H. apply U3; [lia|]. now apply M3.
    + injection E as <- <-. split; [apply En|]. split; [intros id T _; now apply lasts_ends|]. exists m. split; [exact Q|]. split; [exact M1|]. split; [intros H _; apply M2; [exact H|discriminate]|]. intros t I _ H. now apply M3.
  - injection E as <- <-. split; [apply En|]. split; [intros id T _; now apply lasts_ends|]. exists m. split; [exact Q|]. split; [exact M1|]. split; [congruence|]. intros t I _ H. now apply M3.
Qed.
End Acts2.

(** ** The jail *)
Lemma nth_firstn_lt {A} (l : list A) : forall m p, (p < m)%nat -> nth_error (firstn m l) p = nth_error l p.
Proof. induction l as [|x l IH]; intros [|m] [|p] H; cbn; auto; try lia. apply IH. lia. Qed.
Lemma nth_skipn {A} m : forall (l : list A) p, nth_error (skipn m l) p = nth_error l (m + p)%nat.
Proof. induction m as [|m IH]; intros [|x l] p; cbn; auto. now destruct p. Qed.
Section Jail.
Context (orc : oracle) (sub : string -> option (string -> bool)).
Definition wfj (j : jail) : Prop := wf_bm (as_bm (j_acts j)) /\ NoDup (action_names (j_acts j)).
Lemma as_puts l : forall a, as_run orc sub a (map OPut l) = with_queue (as_queue a ++ l) a.
Proof.
  induction l as [|t l IH]; intros a; cbn [map]; [rewrite app_nil_r; now destruct a|]. unfold as_run in *. cbn [fold_left]. rewrite IH. cbn [as_step with_queue as_queue]. rewrite <- app_assoc. reflexivity.
Qed.
Lemma step_acts j o : exists puts, j_acts (fst (jail_step orc sub j o)) = as_run orc sub (j_acts j) (match o with JActs o => [o] | _ => map OPut puts end).
Proof.
  destruct o as [o|a inc rows t now|o]; cbn [jail_step].
  - destruct (flt_step (j_flt j) o) as [f e]. exists (l_queue f). rewrite as_puts. reflexivity.
  - match goal with |- context[match ?x with Some _ => _ | None => _ end] => destruct x as [[tk same]|] end; [|exists []; reflexivity].
    destruct (Observer_Model.failure_found _ _ _ _ _ _ _ _ _) as [[[[fm x] nx] q]|]; [|exists []; reflexivity]. exists q. rewrite as_puts. reflexivity.
  - exists []. reflexivity.
Qed.
Lemma run_acts ops : forall j j' evs, jail_run orc sub j ops = (j', evs) ->
  exists aops, j_acts j' = as_run orc sub (j_acts j) aops /\ filter (fun o => negb (is_put o)) aops = filter (fun o => negb (is_put o)) (acts_part ops).
Proof.
  induction ops as [|o ops IH]; intros j j' evs E; cbn [jail_run] in E; [injection E as <- <-; exists []; auto|].
  destruct (jail_step orc sub j o) as [j1 e] eqn:E1. destruct (jail_run orc sub j1 ops) as [j2 es] eqn:E2. injection E as <- <-.
  destruct (step_acts j o) as [p P]. rewrite E1 in P. cbn [fst] in P. destruct (IH _ _ _ E2) as (aops & A & F). eexists. split; [rewrite A, P; unfold as_run; rewrite <- fold_left_app; reflexivity|].
  rewrite filter_app, F. assert (Z0 : forall l, filter (fun o => negb (is_put o)) (map OPut l) = []) by (induction l; auto). destruct o; cbn [acts_part]; [rewrite Z0; reflexivity|rewrite Z0; reflexivity|]. cbn [filter]. now destruct (negb (is_put o)).
Qed.
Lemma wfj_step j o : wfj j -> wfj (fst (jail_step orc sub j o)).
Proof. intros W. unfold wfj. destruct (step_acts j o) as [p ->]. now apply wf_run. Qed.

Definition T_of (j : jail) (tk : ticket) : Z := Z.min MAX_TIME (eob (j_acts j) tk).
Lemma calm_step j o : wfj j -> no_command o ->
  let j' := fst (jail_step orc sub j o) in
  wfj j' /\ bm_time (as_bm (j_acts j')) = bm_time (as_bm (j_acts j)) /\
  (forall id T, Forall (fun now => now <= T) (round_times [o]) -> lasts id T (j_acts j) -> lasts id T (j_acts j')) /\
  forall p tk, nth_error (as_queue (j_acts j)) p = Some tk -> Forall (fun now => now <= T_of j tk) (round_times [o]) ->
    lasts (t_id tk) (T_of j tk) (j_acts j') \/ exists p', nth_error (as_queue (j_acts j')) p' = Some tk /\ (p' + ready_rounds [o] <= p)%nat /\
      ((match o with JActs (ORound rd now c) => snd (main_round orc rd now c (j_acts j)) <> None | _ => True end) -> (p' + 10 * ready_rounds [o] <= p)%nat).
Proof.
  intros W C. cbn zeta. split; [now apply wfj_step|].
  assert (Put : forall l, j_acts (fst (jail_step orc sub j o)) = with_queue (as_queue (j_acts j) ++ l) (j_acts j) -> ready_rounds [o] = 0%nat ->
    bm_time (as_bm (j_acts (fst (jail_step orc sub j o)))) = bm_time (as_bm (j_acts j)) /\
    (forall id T, Forall (fun now => now <= T) (round_times [o]) -> lasts id T (j_acts j) -> lasts id T (j_acts (fst (jail_step orc sub j o)))) /\
    forall p tk, nth_error (as_queue (j_acts j)) p = Some tk -> Forall (fun now => now <= T_of j tk) (round_times [o]) ->
    lasts (t_id tk) (T_of j tk) (j_acts (fst (jail_step orc sub j o))) \/ exists p', nth_error (as_queue (j_acts (fst (jail_step orc sub j o)))) p' = Some tk /\ (p' + ready_rounds [o] <= p)%nat /\
      ((match o with JActs (ORound rd now c) => snd (main_round orc rd now c (j_acts j)) <> None | _ => True end) -> (p' + 10 * ready_rounds [o] <= p)%nat)).
  { intros l A R. rewrite A, R. cbn [with_queue as_bm as_queue]. split; [reflexivity|]. split; [intros id T _ H; exact H|]. intros p tk N _. right. exists p. split; [|lia]. rewrite nth_error_app1; [exact N|]. apply nth_error_Some. congruence. }
  destruct o as [o|a inc rows t now|o].
  - destruct (step_acts j (JFilter o)) as [p P]. rewrite as_puts in P. now apply (Put p).
  - destruct (step_acts j (JKnown a inc rows t now)) as [p P]. rewrite as_puts in P. now apply (Put p).
  - destruct o; cbn [no_command] in C; try contradiction.
    + now apply (Put [tk]).
    + clear Put. cbn [jail_step fst j_acts as_step]. destruct (main_round orc ready now cnt (j_acts j)) as [s' r] eqn:E. cbn [fst snd]. apply round_serves in E as (T & L & m & Q & M1 & M2 & M3); [|apply W].
      split; [exact T|]. cbn [round_times]. split; [intros id T0 F; inversion F; subst; now apply L|]. intros p tk N F. inversion F as [|? ? Hn _]; subst.
      destruct (Nat.lt_ge_cases p m) as [Lt|Ge].
      * left. unfold T_of in *. apply M3; [|lia|lia]. assert (nth_error (firstn m (as_queue (j_acts j))) p = Some tk) as X by (rewrite nth_firstn_lt; auto). eapply nth_error_In; eauto.
      * right. exists (p - m)%nat. rewrite Q. rewrite nth_skipn. replace (m + (p - m))%nat with p by lia. split; [exact N|].
        assert (P : (p < length (as_queue (j_acts j)))%nat) by (apply nth_error_Some; congruence). assert (as_queue (j_acts j) <> []) as NE by (intros X; rewrite X in P; cbn in P; lia).
        destruct ready; cbn [ready_rounds]; [|lia]. specialize (M1 eq_refl NE). split; [lia|]. intros H. specialize (M2 eq_refl H). lia.
Qed.
Lemma rounds_app o ops : ready_rounds (o :: ops) = (ready_rounds [o] + ready_rounds ops)%nat /\ round_times (o :: ops) = round_times [o] ++ round_times ops.
Proof. destruct o as [| |[]]; try (split; reflexivity). destruct ready; split; reflexivity. Qed.
Lemma calm_lasts id T ops : forall j j' evs, wfj j -> Forall no_command ops -> Forall (fun now => now <= T) (round_times ops) -> jail_run orc sub j ops = (j', evs) -> lasts id T (j_acts j) -> lasts id T (j_acts j').
Proof.
  induction ops as [|o ops IH]; intros j j' evs W C F E L; cbn [jail_run] in E; [injection E as <- _; exact L|]. inversion C as [|? ? Co Cs]; subst. rewrite (proj2 (rounds_app o ops)) in F. apply Forall_app in F as [F1 F2].
  destruct (calm_step j o W Co) as (W1 & _ & L1 & _). destruct (jail_step orc sub j o) as [j1 e]. cbn [fst] in *. destruct (jail_run orc sub j1 ops) as [j2 es] eqn:E2. injection E as <- _. eapply IH; eauto.
Qed.
Lemma calm_served tk ops : forall j j' evs p, wfj j -> Forall no_command ops -> Forall (fun now => now <= T_of j tk) (round_times ops) -> jail_run orc sub j ops = (j', evs) ->
  nth_error (as_queue (j_acts j)) p = Some tk -> ((p < ready_rounds ops)%nat \/ rounds_fine orc sub j ops /\ (p < 10 * ready_rounds ops)%nat) -> lasts (t_id tk) (T_of j tk) (j_acts j').
Proof.
  induction ops as [|o ops IH]; intros j j' evs p W C F E N P; cbn [jail_run] in E; [cbn in P; lia|]. inversion C as [|? ? Co Cs]; subst. pose proof F as F'. rewrite (proj2 (rounds_app o ops)) in F. apply Forall_app in F as [F1 F2].
  rewrite (proj1 (rounds_app o ops)) in P. destruct (calm_step j o W Co) as (W1 & T1 & L1 & S1). cbn [rounds_fine] in P. destruct (jail_step orc sub j o) as [j1 e]. cbn [fst] in *. destruct (jail_run orc sub j1 ops) as [j2 es] eqn:E2. injection E as <- _.
  assert (TT : T_of j1 tk = T_of j tk) by (unfold T_of, eob; now rewrite T1).
  destruct (S1 p tk N F1) as [L|(p' & N' & P1 & P2)]; [eapply calm_lasts; eauto|]. rewrite <- TT. eapply IH; eauto; [now rewrite TT|]. destruct P as [P|[[P3 P4] P]]; [left; lia|]. right. split; [exact P4|]. specialize (P2 P3). lia.
Qed.
End Jail.
