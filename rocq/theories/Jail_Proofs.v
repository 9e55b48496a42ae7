(** Proofs about a whole jail: where bans come from. *)
From Verif Require Import Base Ticket_Model FailManager_Model FailManager_Spec FailManager_Proofs FailManager_Props Filter_Model Filter_Spec Filter_Proofs
  BanManager_Model BanManager_Spec BanManager_Proofs Actions_Model Actions_Spec Actions_Proofs Actions_Proofs2 Jail_Model Jail_Spec.
From Verif Require Observer_Model.
Require Import ZifyBool ZifyNat.

(** ** The actions: no more ban calls than tickets taken and commands *)
Lemma ban_calls_app n id a b : ban_calls n id (a ++ b) = ban_calls n id a + ban_calls n id b.
Proof. induction a as [|[[] r] a IH]; cbn [ban_calls app]; rewrite ?IH; lia. Qed.
Lemma bans_nonneg id q : 0 <= bans id q.
Proof. induction q as [|t q IH]; cbn [bans]; [lia|]. destruct (eqb _ _); lia. Qed.
Lemma bans_skip id k : forall q, bans id (skipn k q) <= bans id q.
Proof. induction k as [|k IH]; intros [|t q]; cbn [skipn bans]; try lia. specialize (IH q). destruct (eqb _ _); lia. Qed.
Lemma calls_none n id tr : forallb (fun c => negb (is_ban_call c)) (map fst tr) = true -> ban_calls n id tr = 0.
Proof. induction tr as [|[[] r] tr IH]; cbn; intros H; try discriminate; auto. Qed.
Lemma inert_none n id tr : forallb inert (map fst tr) = true -> ban_calls n id tr = 0.
Proof. intros H. apply calls_none. rewrite forallb_forall in H |- *. intros c I. specialize (H c I). now destruct c. Qed.
Lemma calls_of n id i : forall names tr, NoDup names -> map fst tr = map (fun m => CBan m i) names -> 0 <= ban_calls n id tr <= (if eqb i id then 1 else 0).
Proof.
  assert (G : forall names tr, NoDup names -> map fst tr = map (fun m => CBan m i) names -> 0 <= ban_calls n id tr <= (if eqb i id && inb n names then 1 else 0)).
  { induction names as [|m names IH]; intros [|[c r] tr] N E; cbn in E; try discriminate; cbn [ban_calls]; [destruct (_ && _); lia|].
    injection E as -> E. inversion N as [|? ? N1 N2]; subst. specialize (IH tr N2 E). unfold inb in *. cbn [existsb].
    destruct (eqb_spec i id) as [Ei|_]; rewrite ?andb_false_r; cbn [andb] in *; [|lia]. rewrite andb_true_r.
    destruct (eqb_spec m n) as [Em|Ne].
    - subst m. rewrite eqb_refl. cbn [orb]. destruct (existsb (eqb n) names) eqn:X; [apply inb_In in X; contradiction|lia].
    - destruct (eqb_spec n m) as [En|_]; [congruence|]. cbn [orb]. exact IH. }
  intros names tr N E. specialize (G names tr N E). destruct (eqb i id); cbn [andb] in G; [|lia]. destruct (inb n names); lia.
Qed.

(** Steps that make no ban call. *)
Definition no_bans (s s' : acts) : Prop := exists tr, as_trace s' = as_trace s ++ tr /\ forallb (fun c => negb (is_ban_call c)) (map fst tr) = true.
Lemma no_bans_refl s s' : as_trace s' = as_trace s -> no_bans s s'.
Proof. intros E. exists []. now rewrite app_nil_r. Qed.
Lemma no_bans_trans a b c : no_bans a b -> no_bans b c -> no_bans a c.
Proof. intros (t1 & E1 & F1) (t2 & E2 & F2). exists (t1 ++ t2). rewrite E2, E1, app_assoc, map_app, forallb_app, F1, F2. auto. Qed.
Lemma no_bans_calls s s' cs : new_calls s s' cs -> forallb (fun c => negb (is_ban_call c)) cs = true -> no_bans s s'.
Proof. intros (tr & E & <-) F. now exists tr. Qed.

Section Acts.
Context (orc : oracle).
Lemma nb_emit c s : is_ban_call c = false -> no_bans s (fst (emit orc c s)).
Proof. intros F. destruct (emit orc c s) as [s1 r] eqn:E. apply emit_spec in E as (_ & T & _). exists [(c, r)]. cbn. now rewrite T, F. Qed.
Lemma nb_act n c s s' r : is_ban_call c = false -> act_call orc n c s = (s', r) -> no_bans s s'.
Proof. intros F E. apply act_call_spec in E as (_ & T & _). exists [(c, r)]. cbn. now rewrite T, F. Qed.
Lemma nb_call_all mk names s : (forall n, is_ban_call (mk n) = false) -> no_bans s (call_all orc mk names s).
Proof.
  intros F. destruct (call_all_calls orc mk names s) as (_ & N & _). apply (no_bans_calls _ _ _ N). rewrite forallb_forall. intros c I. apply in_map_iff in I as (x & <- & _). now rewrite F.
Qed.
Lemma nb_unban_each names l : forall s, no_bans s (unban_each orc names l s).
Proof. induction l as [|t l IH]; intros s; cbn [unban_each]; [now apply no_bans_refl|]. eapply no_bans_trans; [|apply IH]. now apply nb_call_all. Qed.
Lemma nb_flush_loop l : forall s s' r, flush_loop orc l s = (s', r) -> no_bans s s'.
Proof.
  induction l as [|[n a] l IH]; intros s s' r E; cbn [flush_loop] in E; [injection E as <- <-; now apply no_bans_refl|].
  assert (K : forall s1 s2 r2, match flush_loop orc l s1 with (s, Some k) => (s, Some (n :: k)) | (s, None) => (s, None) end = (s2, r2) -> no_bans s1 s2).
  { intros s1 s2 r2 H. destruct (flush_loop orc l s1) as [s3 [k|]] eqn:X; injection H as <- <-; eapply IH; eauto. }
  destruct (ac_flush a); [|eapply K; eauto]. destruct (act_call orc n (CFlush n) s) as [s1 rs] eqn:E1. apply nb_act in E1; [|reflexivity].
  destruct (r_raise rs).
  - destruct (ac_check a); [|eapply no_bans_trans; [exact E1|eapply K; eauto]]. destruct (act_call orc n (CCheck n) s1) as [s2 rc] eqn:E2. apply nb_act in E2; [|reflexivity].
    destruct (r_raise rc); [injection E as <- <-; eapply no_bans_trans; eauto|]. eapply no_bans_trans; [eapply no_bans_trans; [exact E1|exact E2]|eapply IH; eauto].
  - eapply no_bans_trans; [exact E1|]. destruct (r_true rs); [eapply IH; eauto|eapply K; eauto].
Qed.
Lemma nb_flush db only s : no_bans s (fst (flush_ban orc db only s)).
Proof.
  unfold flush_ban. set (x := match only with Some _ => _ | None => _ end). assert (X : as_trace (fst x) = as_trace s) by (unfold x; destruct only; [reflexivity|]; now destruct (flush_ban_list (as_bm s))).
  destruct x as [s1 lst]. cbn [fst] in X. destruct (flush_loop orc _ s1) as [s2 [names|]] eqn:E; apply nb_flush_loop in E; cbn [fst]; (eapply no_bans_trans; [now apply no_bans_refl; exact X|]); [|exact E].
  eapply no_bans_trans; [exact E|]. eapply no_bans_trans; [|apply nb_unban_each]. destruct (_ && _); [now apply nb_emit|now apply no_bans_refl].
Qed.
Lemma nb_stop names : forall s, no_bans s (stop_loop orc names s).
Proof.
  induction names as [|n names IH]; intros s; cbn [stop_loop]; [now apply no_bans_refl|]. destruct (act_call orc n (CStop n) s) as [s1 r] eqn:E. apply nb_act in E; [|reflexivity]. cbn [fst].
  eapply no_bans_trans; [exact E|]. eapply no_bans_trans; [|apply IH]. now apply no_bans_refl.
Qed.
Lemma nb_remove_one id db ife s : no_bans s (fst (remove_one orc id db ife s)).
Proof.
  unfold remove_one. match goal with |- context[pop_ticket (as_bm ?x) id] => set (s0 := x) end. assert (X : no_bans s s0) by (unfold s0; destruct (_ && _); [now apply nb_emit|now apply no_bans_refl]).
  destruct (pop_ticket (as_bm s0) id) as [bm [t|]]; cbn [fst]; [|exact X]. eapply no_bans_trans; [exact X|]. unfold unban_one. eapply no_bans_trans; [|now apply nb_call_all]. now apply no_bans_refl.
Qed.
Lemma nb_remove_list one ife : (forall i s, no_bans s (fst (one i s))) -> forall ids missed cnt s, no_bans s (fst (remove_list one ife ids missed cnt s)).
Proof.
  intros H. induction ids as [|i ids IH]; intros missed cnt s; cbn [remove_list]; [now apply no_bans_refl|]. specialize (H i s). destruct (one i s) as [s1 [c|m|]]; cbn [fst] in H |- *; auto; eapply no_bans_trans; eauto.
Qed.
Lemma nb_remove sub ids db ife s : no_bans s (fst (remove_banned orc sub ids db ife s)).
Proof.
  apply nb_remove_list. intros i s0. unfold remove_single. match goal with |- context[dget i (bm_list (as_bm ?x))] => set (s1 := x) end. assert (X : no_bans s0 s1) by (unfold s1; destruct (_ && _); [now apply nb_emit|now apply no_bans_refl]).
  destruct (dget i (bm_list (as_bm s1))); [apply nb_remove_one|]. destruct (sub i) as [f|]; [|apply nb_remove_one]. destruct (filter f _) as [|a l]; [exact X|].
  eapply no_bans_trans; [exact X|]. apply nb_remove_list. intros j s2. apply nb_remove_one.
Qed.

(** A ticket is asked to be banned at most once by each action. *)
Lemma one_calls n id tk now ra s s' r : wf_bm (as_bm s) -> NoDup (action_names s) -> check_ban_one orc tk now ra s = (s', r) ->
  exists tr, as_trace s' = as_trace s ++ tr /\ ban_calls n id tr <= (if eqb (t_id tk) id then 1 else 0) /\ wf_bm (as_bm s') /\ NoDup (action_names s') /\ as_queue s' = as_queue s.
Proof.
  intros W N E. destruct (check_ban_one_queue orc _ _ _ _ _ _ W E) as [W' Q]. destruct (check_ban_one_cases orc _ _ _ _ _ _ E) as [[He Hn]|Qu].
  - destruct (fresh_ban orc s tk now ra He Hn) as (s1 & X & (tr & T & M) & _ & _ & _ & _ & _ & _ & SG & _). rewrite X in E. injection E as <- _.
    exists tr. split; [exact T|]. split; [|split; [exact W'|split; [|exact Q]]].
    + assert (P : exists a b, tr = a ++ b /\ map fst a = (if t_restored tk then [] else [CObserver (t_id tk)]) /\ map fst b = map (fun n => CBan n (t_id tk)) (map fst (filter (fun kv => negb (t_restored tk && ac_norestored (snd kv))) (as_actions s)))).
      { exists (firstn (length (if t_restored tk then [] else [CObserver (t_id tk)])) tr), (skipn (length (if t_restored tk then [] else [CObserver (t_id tk)])) tr).
        rewrite firstn_skipn, <- firstn_map, <- skipn_map, M. rewrite firstn_app, skipn_app, Nat.sub_diag, firstn_all, skipn_all. cbn. now rewrite app_nil_r. }
      destruct P as (a & b & -> & Ma & Mb). rewrite ban_calls_app. assert (A0 : ban_calls n id a = 0) by (apply calls_none; rewrite Ma; now destruct (t_restored tk)).
      apply (calls_of n id) in Mb; [lia|]. now apply NoDup_map_filter.
    + unfold action_names in *. rewrite (sg_keys _ _ SG). exact N.
  - destruct (Qu W) as (_ & _ & SG & _ & _ & _ & _ & _ & tr & T & I). exists tr. split; [exact T|]. rewrite (inert_none n id tr I). split; [destruct (eqb _ _); lia|]. split; [exact W'|]. split; [|exact Q].
    unfold action_names in *. rewrite (sg_keys _ _ SG). exact N.
Qed.
Lemma queue_calls n id now k : forall ra cnt s s' r, wf_bm (as_bm s) -> NoDup (action_names s) -> check_ban_queue orc k now ra cnt s = (s', r) ->
  ban_calls n id (as_trace s') + bans id (as_queue s') <= ban_calls n id (as_trace s) + bans id (as_queue s).
Proof.
  induction k as [|k IH]; intros ra cnt s s' r W N E; cbn [check_ban_queue] in E; [injection E as <- _; lia|]. destruct (as_queue s) as [|tk q] eqn:Q; [injection E as <- _; rewrite Q; cbn [bans]; lia|].
  destruct (check_ban_one orc tk now ra (with_queue q s)) as [s1 r1] eqn:E1. apply (one_calls n id) in E1; [|exact W|exact N]. destruct E1 as (tr & T & C & W1 & N1 & Q1).
  cbn [with_queue as_trace as_queue] in T, Q1. cbn [bans].
  assert (G : ban_calls n id (as_trace s1) + bans id (as_queue s1) <= ban_calls n id (as_trace s) + ((if eqb (t_id tk) id then 1 else 0) + bans id q)) by (rewrite T, Q1, ban_calls_app; lia).
  destruct r1 as [[c ra1]|]; [|injection E as <- _; exact G]. apply IH in E; auto. lia.
Qed.
Lemma list_calls n id now tks : forall ra cnt s s' r, wf_bm (as_bm s) -> NoDup (action_names s) -> check_ban_list orc tks now ra cnt s = (s', r) ->
  ban_calls n id (as_trace s') <= ban_calls n id (as_trace s) + bans id tks /\ as_queue s' = as_queue s.
Proof.
  induction tks as [|tk tks IH]; intros ra cnt s s' r W N E; cbn [check_ban_list] in E; [injection E as <- _; cbn [bans]; split; [lia|reflexivity]|].
  destruct (check_ban_one orc tk now ra s) as [s1 r1] eqn:E1. apply (one_calls n id) in E1; [|exact W|exact N]. destruct E1 as (tr & T & C & W1 & N1 & Q1). cbn [bans].
  assert (G : ban_calls n id (as_trace s1) <= ban_calls n id (as_trace s) + (if eqb (t_id tk) id then 1 else 0)) by (rewrite T, ban_calls_app; lia).
  pose proof (bans_nonneg id tks). destruct r1 as [[c ra1]|]; [|injection E as <- _; split; [lia|exact Q1]]. apply IH in E as [E Q2]; auto. split; [lia|congruence].
Qed.
Lemma bans_manual id now ids : bans id (map (fun i => with_isban true (new_ticket i now [] 0)) ids) = times id ids.
Proof. induction ids as [|i ids IH]; cbn [map bans times]; [reflexivity|]. rewrite IH. reflexivity. Qed.

Definition manual (id : string) (o : as_op) : Z := match o with OBanIP ids _ => times id ids | _ => 0 end.
Lemma step_calls sub n id s o : wf_bm (as_bm s) -> NoDup (action_names s) ->
  ban_calls n id (as_trace (as_step orc sub s o)) + bans id (as_queue (as_step orc sub s o)) <= ban_calls n id (as_trace s) + bans id (as_queue s) + bans id (puts [o]) + manual id o.
Proof.
  intros W N. assert (Z0 : no_bans s (as_step orc sub s o) -> manual id o = 0 -> ban_calls n id (as_trace (as_step orc sub s o)) + bans id (as_queue (as_step orc sub s o)) <= ban_calls n id (as_trace s) + bans id (as_queue s) + bans id (puts [o]) + manual id o).
  { intros (tr & T & F) M. destruct (queue_step orc sub s o W) as [k Q]. rewrite T, Q, ban_calls_app, bans_app, (calls_none n id tr F). pose proof (bans_skip id k (as_queue s)). lia. }
  destruct o; cbn [manual] in *.
  - apply Z0; [|reflexivity]. now apply no_bans_refl.
  - cbn [as_step puts flat_map app bans]. unfold main_round. destruct (if ready then check_ban orc now s else (s, Some 0%nat)) as [s1 r] eqn:E1.
    assert (H1 : ban_calls n id (as_trace s1) + bans id (as_queue s1) <= ban_calls n id (as_trace s) + bans id (as_queue s)).
    { destruct ready; [|injection E1 as <- _; lia]. unfold check_ban in E1. eapply queue_calls; eauto. }
    destruct r as [c|]; [|cbn [fst]; lia]. destruct (_ || _); cbn [fst]; [|lia]. rewrite check_unban_queue.
    assert (NB : no_bans s1 (fst (check_unban orc now (if Nat.ltb 0 (c * 2) && Nat.ltb (c * 2) unbanMaxCount then (c * 2)%nat else unbanMaxCount) s1))).
    { unfold check_unban. destruct (unban_list _ _ _) as [bm l]. cbn [fst]. eapply no_bans_trans; [|apply nb_unban_each]. now apply no_bans_refl. }
    destruct NB as (tr & T & F). rewrite T, ban_calls_app, (calls_none n id tr F). lia.
  - cbn [as_step puts flat_map app bans]. unfold add_banned_ip. destruct (check_ban_list _ _ _ _ _ _) as [s1 r] eqn:E. apply (list_calls n id) in E as [E Q]; auto. rewrite bans_manual in E. cbn [fst]. rewrite Q. lia.
  - apply Z0; [|reflexivity]. apply nb_remove.
  - apply Z0; [|reflexivity]. apply nb_flush.
  - apply Z0; [|reflexivity]. cbn [as_step]. unfold prolong_ban. destruct (dmem _ _); [|now apply no_bans_refl]. now apply nb_call_all.
  - apply Z0; [|reflexivity]. now apply no_bans_refl.
  - apply Z0; [|reflexivity]. now apply no_bans_refl.
  - apply Z0; [|reflexivity]. cbn [as_step]. unfold thread_end. pose proof (nb_flush false None s) as F. destruct (flush_ban orc false None s) as [s1 [k|]]; cbn [fst] in *; [|exact F].
    eapply no_bans_trans; [exact F|]. apply nb_stop.
Qed.
End Acts.

(** ** The failure manager: the weight of the reports *)
Fixpoint wsum (id : string) (ops : list fm_op) : Z :=
  match ops with
  | [] => 0
  | FAdd tk c _ :: r => (if eqb (t_id tk) id then report_weight tk c else 0) + wsum id r
  | FAddSame i c _ :: r => (if eqb i id then c else 0) + wsum id r
  | _ :: r => wsum id r
  end.
Lemma wsum_app id a b : wsum id (a ++ b) = wsum id a + wsum id b.
Proof. induction a as [|o a IH]; cbn [wsum app]; [reflexivity|]. destruct o; rewrite IH; lia. Qed.
Lemma wsum_plain id ops : Forall filter_call ops -> wsum id ops = total id (calls_reported ops).
Proof.
  induction 1 as [|o ops F _ IH]; [reflexivity|]. destruct o; cbn [wsum calls_reported total filter_call] in *; try contradiction; auto.
  destruct F as (_ & R & _ & _ & C). rewrite IH. unfold report_weight. destruct (eqb _ _); lia.
Qed.
Lemma gbans_le R id : forall ops fm fm' outs, fresh_fm fm -> Forall sane_op ops -> R <= fm_retry fm -> (forall n, In (FSetRetry n) ops -> R <= n) -> fm_run fm ops = (fm', outs) ->
  R <= fm_retry fm' /\
  match track id (fm_time fm) (combine ops outs) with
  | Some e => 0 <= e_weight e /\ R * bans id (handed outs) + e_weight e <= wsum id ops
  | None => R * bans id (handed outs) <= wsum id ops
  end.
Proof.
  induction ops as [|o ops IH] using rev_ind; intros fm fm' outs Fr C R0 Rs E.
  { cbn in E. injection E as <- <-. split; [exact R0|]. cbn. lia. }
  rewrite fm_run_app in E. destruct (fm_run fm ops) as [fm1 o1] eqn:E1. cbn [fm_run] in E. destruct (fm_step fm1 o) as [fm2 out] eqn:E2. injection E as <- <-.
  apply Forall_app in C as [C Co]. inversion Co as [|? ? Co' _]; subst. clear Co.
  destruct (IH fm fm1 o1 Fr C R0 (fun n I => Rs n (in_or_app _ _ _ (or_introl I))) E1) as [R1 T].
  rewrite combine_snoc by (symmetry; eapply fm_run_len; eauto). unfold track in *. rewrite fold_left_app. cbn [fold_left].
  set (st := fold_left (track1 id) (combine ops o1) (fm_time fm, None)) in *. destruct st as [ft en] eqn:St. cbn [snd] in T.
  rewrite wsum_app, handed_app, bans_app.
  assert (Keep : fm_retry fm2 = fm_retry fm1 -> R <= fm_retry fm2) by lia.
  destruct o as [tk count obs|i count obs|t|i|q|n|n|n]; cbn [sane_op] in Co'.
  - destruct Co' as (Hc & Hr & Hf). cbn [fm_step] in E2. destruct (add_failure fm1 tk false count obs) as [f n] eqn:Ea. injection E2 as <- <-.
    split. { apply Keep. unfold add_failure in Ea. repeat match type of Ea with context [match ?x with _ => _ end] => destruct x end; injection Ea as <- <-; reflexivity. }
    cbn [track1 wsum handed bans]. destruct (eqb (t_id tk) id); cbn [snd]; [|destruct en; lia].
    unfold report_weight. destruct en as [e|]; cbn [e_weight]; [lia|]. destruct (_ || _); cbn [e_weight]; lia.
  - cbn [fm_step] in E2. assert (X : fm_retry fm2 = fm_retry fm1 /\ handed [out] = []).
    { destruct (dget i (fm_list fm1)) as [tk|]; [|injection E2 as <- <-; auto]. destruct (add_failure fm1 tk true count obs) as [f n] eqn:Ea. injection E2 as <- <-. split; [|reflexivity].
      unfold add_failure in Ea. repeat match type of Ea with context [match ?x with _ => _ end] => destruct x end; injection Ea as <- <-; reflexivity. }
    destruct X as [X ->]. split; [now apply Keep|]. cbn [track1 wsum bans]. destruct (eqb i id); cbn [snd]; destruct en as [e|]; cbn [e_weight]; lia.
  - cbn [fm_step] in E2. injection E2 as <- <-. split. { apply Keep. apply cleanup_other. }
    cbn [track1 wsum handed bans]. cbn [snd]. destruct en as [e|]; [|lia]. destruct (_ <=? _); lia.
  - cbn [fm_step] in E2. injection E2 as <- <-. split; [apply Keep; reflexivity|]. cbn [track1 wsum handed bans]. destruct (eqb i id); cbn [snd]; destruct en; lia.
  - cbn [fm_step] in E2. destruct (to_ban fm1 q) as [f r] eqn:Et. injection E2 as <- <-.
    split. { apply Keep. unfold to_ban in Et. destruct (first_bannable _ _) as [[k t]|]; injection Et as <- <-; reflexivity. }
    cbn [track1 wsum handed bans]. destruct r as [t|]; cbn [handed bans snd]; [|destruct en; lia].
    destruct (eqb_spec (t_id t) id) as [Eq|N]; cbn [snd]; [|destruct en; lia].
    destruct (C01_ban_needs_maxretry_reports fm ops fm1 o1 q f t Fr) as (e & He & Hw); auto.
    unfold track in He. rewrite Eq in He. fold st in He. rewrite St in He. cbn [snd] in He. subst en. lia.
  - cbn [fm_step] in E2. injection E2 as <- <-. cbn [fm_retry]. split; [apply Rs; apply in_or_app; right; now left|]. cbn [track1 wsum handed bans snd]. destruct en; lia.
  - cbn [fm_step] in E2. injection E2 as <- <-. split; [apply Keep; reflexivity|]. cbn [track1 wsum handed bans snd]. destruct en; lia.
  - cbn [fm_step] in E2. injection E2 as <- <-. split; [apply Keep; reflexivity|]. cbn [track1 wsum handed bans snd]. destruct en; lia.
Qed.

(** ** The observer's look at a failure *)
Lemma aggravation_extra b : Observer_Model.extra_retry b = aggravation b + 1.
Proof.
  unfold Observer_Model.extra_retry, aggravation. f_equal. destruct (b <? 1) eqn:B.
  - replace (b <? 20) with true by lia. destruct (b =? 0) eqn:Z0; [replace b with 0 by lia; reflexivity|]. now rewrite Z.pow_neg_r by lia.
  - set (k := if b <? 20 then b else 20). assert (K : k = Z.succ (Z.min b 20 - 1)) by (unfold k; destruct (b <? 20) eqn:X; lia). rewrite K, Z.pow_succ_r by lia.
    rewrite Z.mul_comm, Z.div_mul by lia. reflexivity.
Qed.
Lemma aggravation_nonneg b : 0 <= aggravation b.
Proof. unfold aggravation. destruct (_ <? _); [lia|]. apply Z.pow_nonneg. lia. Qed.
Lemma bancount_add fm id tk bc c obs : dget id (fm_list fm) = Some tk -> t_id tk = id -> add_failure fm (with_bancount bc tk) true c obs = add_failure fm tk true c obs.
Proof.
  intros G I. unfold add_failure, FailManager_Model.add_known. replace (t_id (with_bancount bc tk)) with (t_id tk) by reflexivity. rewrite I, G. reflexivity.
Qed.

Definition known_calls (f f' : flt) (w : string -> Z) : Prop :=
  exists fops outs, fm_run (l_fm f) fops = (l_fm f', outs) /\ Forall sane_op fops /\ (forall n, ~ In (FSetRetry n) fops) /\ l_queue f' = l_queue f ++ handed outs /\ forall id, wsum id fops <= w id.
Definition known_weight (o : jail_op) (id : string) : Z := match aggravated o with Some (i, a) => if eqb i id then a else 0 | None => 0 end.

(** a report, by whatever call, followed by the ban of the ID *)
Lemma after_report f fm n o c id now w : fm_step (l_fm f) o = (fm, OCount n) -> sane_op o -> (forall m, o <> FSetRetry m) -> (forall i, wsum i [o] <= w i) ->
  match (if n >=? c then match perform_ban fm (Some id) now (l_svc f) (l_queue f) with Some (fm, nx, q) => Some (fm, nx, q) | None => None end else Some (fm, l_svc f, l_queue f)) with
  | Some (fm, nx, q) => known_calls f (with_fm fm nx q f) w
  | None => False
  end.
Proof.
  intros E So Ns W. destruct (n >=? c).
  - unfold perform_ban. cbn [ban_loop]. destruct (to_ban fm (Some id)) as [fm2 r] eqn:Et.
    set (q2 := match r with Some t => l_queue f ++ [t] | None => l_queue f end).
    destruct (svc_refines fm2 now (l_svc f)) as (so & S1 & S2 & S3 & S4 & S5). destruct (perform_svc fm2 now (l_svc f)) as [fm3 nx] eqn:Es. cbn [fst] in S1.
    assert (B : forall q, q = q2 -> known_calls f (with_fm fm3 nx q f) w).
    { intros q ->. destruct (fm_run fm2 so) as [fm3' outs] eqn:Er. cbn [fst snd] in *. subst fm3'. exists (o :: FToBan (Some id) :: so), (OCount n :: OTicket r :: outs).
      assert (ET : fm_step fm (FToBan (Some id)) = (fm2, OTicket r)) by (cbn [fm_step]; now rewrite Et).
      cbn [fm_run]. rewrite E, ET, Er. cbn [with_fm l_fm l_queue]. split; [reflexivity|].
      split. { constructor; [exact So|]. constructor; [exact I|]. eapply Forall_impl; [apply filter_sane|exact S4]. }
      split. { intros m [H|[H|H]]; [now apply Ns in H|discriminate|now apply S5 in H]. }
      split. { unfold q2. destruct r as [t|]; cbn [handed]; now rewrite S2, ?app_nil_r. }
      intros i. change (o :: FToBan (Some id) :: so) with ([o] ++ [FToBan (Some id)] ++ so). rewrite !wsum_app, (wsum_plain i so S4), S3. change (wsum i [FToBan (Some id)]) with 0. change (total i []) with 0. specialize (W i). lia. }
    destruct r as [t|]; rewrite Es; now apply B.
  - exists [o], [OCount n]. cbn [fm_run]. rewrite E. cbn [with_fm l_fm l_queue handed]. rewrite app_nil_r. split; [reflexivity|]. split; [now constructor|]. split; [|split; [reflexivity|exact W]].
    intros m [H|[]]. now apply Ns in H.
Qed.
Lemma known_same f w : (forall i, 0 <= w i) -> known_calls f f w.
Proof. intros W. exists [], []. cbn. rewrite app_nil_r. auto 10. Qed.
Lemma known_weight_nonneg o : (forall a i r tk now, o = JKnown a i r (Other tk) now -> 0 <= t_retry tk /\ 0 <= t_failures tk) -> forall i, 0 <= known_weight o i.
Proof.
  intros H i. unfold known_weight. destruct o as [|a inc rows [id bc|tk] now|]; cbn [aggravated]; try lia.
  - destruct a, inc; try lia. destruct rows as [[|[b l] rows]|]; try lia. destruct (eqb _ _); [apply aggravation_nonneg|lia].
  - destruct a, inc; try lia. destruct rows as [[|[b l] rows]|]; try lia. destruct (t_time tk <=? l); [lia|]. destruct (eqb _ _); [|lia]. cbn zeta. pose proof (aggravation_nonneg (Z.max b (t_bancount tk))).
    destruct (_ =? 0); lia.
Qed.


Lemma put_nothing a : with_queue (as_queue a ++ []) a = a.
Proof. rewrite app_nil_r. now destruct a. Qed.
Definition feeds (j j' : jail) (w : string -> Z) (rs : Z -> Prop) : Prop :=
  exists fops outs, fm_run (l_fm (j_flt j)) fops = (l_fm (j_flt j'), outs) /\ Forall sane_op fops /\ (forall n, In (FSetRetry n) fops -> rs n) /\ l_queue (j_flt j') = [] /\
    j_acts j' = with_queue (as_queue (j_acts j) ++ handed outs) (j_acts j) /\ forall id, wsum id fops <= w id.
Lemma feeds_same j w rs : l_queue (j_flt j) = [] -> (forall i, 0 <= w i) -> feeds j j w rs.
Proof. intros Q W. exists [], []. cbn [fm_run handed wsum]. rewrite put_nothing. split; [reflexivity|]. split; [constructor|]. split; [intros n []|]. auto. Qed.
Lemma feeds_put j f w rs : l_queue (j_flt j) = [] -> known_calls (j_flt j) f w -> feeds j (put_all f (j_acts j)) w rs.
Proof.
  intros Q (fops & outs & R & S & N & L & W). exists fops, outs. rewrite Q in L. cbn [app] in L. unfold put_all. cbn [j_flt j_acts with_fm l_fm l_queue]. rewrite L.
  split; [exact R|]. split; [exact S|]. split; [intros n I; now apply N in I|]. auto.
Qed.

Lemma step_known orc sub j a inc rows t now j' evs rs : wf_fm (l_fm (j_flt j)) -> l_queue (j_flt j) = [] -> (forall tk, t = Other tk -> 0 <= t_retry tk /\ 0 <= t_failures tk) ->
  jail_step orc sub j (JKnown a inc rows t now) = (j', evs) -> evs = [] /\ feeds j j' (known_weight (JKnown a inc rows t now)) rs.
Proof.
  intros Wf Q Ht E. set (w := known_weight (JKnown a inc rows t now)).
  assert (W0 : forall i, 0 <= w i). { apply known_weight_nonneg. intros a0 i0 r0 tk n0 H. injection H as _ _ _ H _. now apply Ht. }
  assert (Id : forall ev : list (IPAddr_Model.ipaddr * Z), (j, []) = (j', ev) -> ev = [] /\ feeds j j' w rs) by (intros ev [= <- <-]; split; [reflexivity|now apply feeds_same]).
  cbn [jail_step] in E. set (who := match t with Stored id bc => match dget id (fm_list (l_fm (j_flt j))) with Some tk => Some (with_bancount bc tk, true) | None => None end | Other tk => Some (tk, false) end) in *.
  destruct who as [[tk same]|] eqn:Who; [|now apply Id].
  set (go := Observer_Model.failure_found a inc rows tk same (l_fm (j_flt j)) now (l_svc (j_flt j)) (l_queue (j_flt j))) in *.
  assert (Put : forall fm nx q x, go = Some (fm, x, nx, q) -> known_calls (j_flt j) (with_fm fm nx q (j_flt j)) w -> evs = [] /\ feeds j j' w rs).
  { intros fm nx q x G K. rewrite G in E. injection E as <- <-. split; [reflexivity|]. now apply feeds_put. }
  assert (Non : forall x, go = Some (l_fm (j_flt j), x, l_svc (j_flt j), l_queue (j_flt j)) -> evs = [] /\ feeds j j' w rs).
  { intros x G. eapply Put; [exact G|]. exists [], []. cbn. rewrite app_nil_r. auto 10. }
  unfold go in *. unfold Observer_Model.failure_found in *. destruct a; cbn [negb orb] in *; [|now eapply Non]. destruct inc; cbn [negb orb] in *; [|now eapply Non].
  destruct rows as [[|[b last] rows]|].
  - replace (Z.min 1 (fm_retry (l_fm (j_flt j))) <=? 1) with true in * by lia. now eapply Non.
  - destruct (t_time tk <=? last) eqn:Tl; [now eapply Non|]. set (bc := Z.max b (t_bancount tk)) in *. set (rc := Z.min (Observer_Model.extra_retry bc) (fm_retry (l_fm (j_flt j)))) in *.
    destruct (rc <=? 1) eqn:Rc; [now eapply Non|]. destruct (add_failure (l_fm (j_flt j)) tk same (rc - 1) true) as [fm n] eqn:Ea.
    pose proof (aggravation_extra bc) as Ax.
    set (o := match t with Stored id _ => FAddSame id (rc - 1) true | Other tk => FAdd tk (rc - 1) true end).
    assert (So : fm_step (l_fm (j_flt j)) o = (fm, OCount n)).
    { unfold o, who in *. destruct t as [id c|tk']; cbn [fm_step].
      - destruct (dget id (fm_list (l_fm (j_flt j)))) as [tk0|] eqn:G; [|discriminate]. injection Who as <- <-. destruct Wf as (_ & Wk & _). rewrite (bancount_add _ id) in Ea; [now rewrite Ea|exact G|now apply Wk in G].
      - injection Who as <- <-. now rewrite Ea. }
    assert (Sa : sane_op o). { unfold o. destruct t as [id c|tk']; cbn [sane_op]; [lia|]. split; [lia|]. now apply Ht. }
    assert (Ws : forall i, wsum i [o] <= w i).
    { intros i. unfold w, known_weight. unfold o, who in *. destruct t as [id c|tk']; cbn [wsum aggravated].
      - destruct (dget id (fm_list (l_fm (j_flt j)))) as [tk0|] eqn:G; [|discriminate]. injection Who as <- <-. assert (bc = Z.max b c) as <- by reflexivity. destruct (eqb id i); lia.
      - injection Who as <- <-. rewrite Tl. cbn zeta. fold bc. destruct (eqb (t_id tk') i); [|lia]. destruct (aggravation bc =? 0) eqn:A0; [lia|]. unfold report_weight. lia. }
    pose proof (after_report (j_flt j) fm n o (fm_retry (l_fm (j_flt j))) (t_id tk) now w So Sa ltac:(unfold o; now destruct t) Ws) as AR.
    replace (t_id (if bc >? t_bancount tk then with_bancount bc tk else tk)) with (t_id tk) in * by (destruct (bc >? t_bancount tk); reflexivity).
    destruct (n >=? fm_retry (l_fm (j_flt j))); [|eapply Put; [reflexivity|exact AR]].
    destruct (perform_ban fm (Some (t_id tk)) now (l_svc (j_flt j)) (l_queue (j_flt j))) as [[[fm2 nx] q]|]; [|destruct AR]. eapply Put; [reflexivity|exact AR].
  - now eapply Non.
Qed.

(** ** A whole history *)
Lemma step_jail orc sub j o j' evs : wf_fm (l_fm (j_flt j)) -> l_queue (j_flt j) = [] -> wf_bm (as_bm (j_acts j)) /\ NoDup (action_names (j_acts j)) -> sane_jail [o] -> jail_step orc sub j o = (j', evs) ->
  exists fops outs, fm_run (l_fm (j_flt j)) fops = (l_fm (j_flt j'), outs) /\ Forall sane_op fops /\ (forall n, In (FSetRetry n) fops -> In (JFilter (FRetry n)) [o]) /\ l_queue (j_flt j') = [] /\
    wf_bm (as_bm (j_acts j')) /\ NoDup (action_names (j_acts j')) /\ (forall id, wsum id fops <= total id (filter_part (o, evs)) + extra id [o]) /\
    forall n id, ban_calls n id (as_trace (j_acts j')) + bans id (as_queue (j_acts j')) <= ban_calls n id (as_trace (j_acts j)) + bans id (as_queue (j_acts j)) + bans id (handed outs) + restored id [o] + commanded id [o].
Proof.
  intros Wf Q [Wb Nd] [Sf Sk] E.
  assert (Fd : forall w rs, feeds j j' w rs -> (forall n, rs n -> In (JFilter (FRetry n)) [o]) -> (forall id, w id <= total id (filter_part (o, evs)) + extra id [o]) -> (forall id, restored id [o] + commanded id [o] = 0) ->
    exists fops outs, fm_run (l_fm (j_flt j)) fops = (l_fm (j_flt j'), outs) /\ Forall sane_op fops /\ (forall n, In (FSetRetry n) fops -> In (JFilter (FRetry n)) [o]) /\ l_queue (j_flt j') = [] /\
    wf_bm (as_bm (j_acts j')) /\ NoDup (action_names (j_acts j')) /\ (forall id, wsum id fops <= total id (filter_part (o, evs)) + extra id [o]) /\
    forall n id, ban_calls n id (as_trace (j_acts j')) + bans id (as_queue (j_acts j')) <= ban_calls n id (as_trace (j_acts j)) + bans id (as_queue (j_acts j)) + bans id (handed outs) + restored id [o] + commanded id [o]).
  { intros w rs (fops & outs & R & S & Nr & L & A & W) Rs Ww Z0. exists fops, outs. split; [exact R|]. split; [exact S|]. split; [intros n I; now apply Rs, Nr|]. split; [exact L|]. rewrite A.
    split; [exact Wb|]. split; [exact Nd|]. split; [intros id; specialize (W id); specialize (Ww id); lia|]. intros n id. specialize (Z0 id). cbn [with_queue as_trace as_queue]. rewrite bans_app. lia. }
  destruct o as [o|a inc rows t now|o].
  - cbn [jail_step] in E. destruct (flt_step (j_flt j) o) as [f e] eqn:Ef. injection E as <- <-. apply step_refines in Ef; [|intros n ->; apply Sf; now left].
    destruct Ef as (fops & outs & R & C & L & F & N). apply (Fd (fun id => total id (filter_part (JFilter o, e))) (fun n => In (FRetry n) [o])).
    + exists fops, outs. unfold put_all. cbn [j_flt j_acts with_fm l_fm l_queue]. rewrite Q in L. cbn [app] in L. rewrite L. split; [exact R|]. split; [eapply Forall_impl; [apply filter_sane|exact F]|].
      split; [intros n I; now apply N|]. split; [reflexivity|]. split; [reflexivity|]. intros id. rewrite (wsum_plain id fops F), C. unfold filter_part. cbn [fst snd]. lia.
    + intros n [I|[]]. left. now rewrite I.
    + intros id. cbn [extra aggravated]. lia.
    + intros id. reflexivity.
  - apply (step_known _ _ _ _ _ _ _ _ _ _ (fun _ => False)) in E as [-> E]; [|exact Wf|exact Q|intros tk ->; eapply Sk; now left]. apply (Fd _ _ E).
    + intros n [].
    + intros id. cbn [extra filter_part fst total]. unfold known_weight. lia.
    + intros id. reflexivity.
  - cbn [jail_step] in E. injection E as <- <-. exists [], []. cbn [fm_run j_flt j_acts handed bans wsum]. split; [reflexivity|]. split; [constructor|]. split; [intros n []|]. split; [exact Q|].
    destruct (wf_step orc sub (j_acts j) o (conj Wb Nd)) as [W1 N1]. split; [exact W1|]. split; [exact N1|]. split; [intros id; cbn; lia|].
    intros n id. pose proof (step_calls orc sub n id (j_acts j) o Wb Nd) as H. destruct o; cbn [puts flat_map app bans manual restored commanded] in *; lia.
Qed.
Lemma sane_cons o ops : sane_jail (o :: ops) -> sane_jail [o] /\ sane_jail ops.
Proof.
  intros [A B]. split; split; intros.
  - apply A. destruct H as [H|[]]. now left.
  - eapply B. destruct H as [H|[]]. left. exact H.
  - apply A. now right.
  - eapply B. right. exact H.
Qed.
Lemma run_wf ops : forall fm fm' outs, wf_fm fm -> Forall sane_op ops -> fm_run fm ops = (fm', outs) -> wf_fm fm'.
Proof.
  induction ops as [|x a IH]; cbn [fm_run]; intros fm fm' outs Wf Sa Ra; [injection Ra as <- _; exact Wf|].
  destruct (fm_step fm x) as [f1 o1] eqn:X. destruct (fm_run f1 a) as [f2 o2] eqn:Y. injection Ra as <- <-. inversion Sa; subst. eapply IH; [|eassumption|eassumption].
  change f1 with (fst (f1, o1)). rewrite <- X. now apply FailManager_Proofs.wf_step.
Qed.
Lemma run_jail orc sub ops : forall j j' evs, wf_fm (l_fm (j_flt j)) -> l_queue (j_flt j) = [] -> wf_bm (as_bm (j_acts j)) /\ NoDup (action_names (j_acts j)) -> sane_jail ops -> jail_run orc sub j ops = (j', evs) ->
  exists fops outs, fm_run (l_fm (j_flt j)) fops = (l_fm (j_flt j'), outs) /\ Forall sane_op fops /\ (forall n, In (FSetRetry n) fops -> In (JFilter (FRetry n)) ops) /\ l_queue (j_flt j') = [] /\
    wf_bm (as_bm (j_acts j')) /\ NoDup (action_names (j_acts j')) /\ (forall id, wsum id fops <= total id (jail_found ops evs) + extra id ops) /\
    forall n id, ban_calls n id (as_trace (j_acts j')) + bans id (as_queue (j_acts j')) <= ban_calls n id (as_trace (j_acts j)) + bans id (as_queue (j_acts j)) + bans id (handed outs) + restored id ops + commanded id ops.
Proof.
  induction ops as [|o ops IH]; intros j j' evs Wf Q WN Sn E; cbn [jail_run] in E.
  { injection E as <- <-. exists [], []. destruct WN as [W1 N1]. split; [reflexivity|]. split; [constructor|]. split; [intros n []|]. split; [exact Q|]. split; [exact W1|]. split; [exact N1|]. split; intros; cbn; lia. }
  destruct (jail_step orc sub j o) as [j1 e] eqn:E1. destruct (jail_run orc sub j1 ops) as [j2 es] eqn:E2. injection E as <- <-.
  apply sane_cons in Sn as [S1 S2]. destruct (step_jail _ _ _ _ _ _ Wf Q WN S1 E1) as (a & oa & Ra & Sa & Na & Qa & Wa & Da & Xa & Ca).
  assert (Wf1 : wf_fm (l_fm (j_flt j1))).
  { eapply run_wf; eauto. }
  destruct (IH _ _ _ Wf1 Qa (conj Wa Da) S2 E2) as (b & ob & Rb & Sb & Nb & Qb & Wb & Db & Xb & Cb).
  exists (a ++ b), (oa ++ ob). rewrite fm_run_app, Ra, Rb. split; [reflexivity|]. split; [now apply Forall_app|].
  split. { intros n I. apply in_app_or in I as [I|I]; [apply Na in I as [I|[]]; now left|right; now apply Nb]. }
  split; [exact Qb|]. split; [exact Wb|]. split; [exact Db|]. split.
  - intros id. specialize (Xa id). specialize (Xb id). rewrite wsum_app. change (jail_found (o :: ops) (e :: es)) with (filter_part (o, e) ++ jail_found ops es). rewrite total_app. cbn [extra] in *. lia.
  - intros n id. specialize (Ca n id). specialize (Cb n id). rewrite handed_app, bans_app.
    assert (restored id (o :: ops) = restored id [o] + restored id ops) as -> by (destruct o as [| |[]]; cbn [restored]; lia).
    assert (commanded id (o :: ops) = commanded id [o] + commanded id ops) as -> by (destruct o as [| |[]]; cbn [commanded]; lia). lia.
Qed.

Lemma jail_causes orc sub a R ops j evs n id : fresh_acts a -> as_queue a = [] -> 0 <= R -> sane_jail ops -> maxretry_from R ops -> jail_run orc sub (jail_init a) ops = (j, evs) ->
  R * ban_calls n id (as_trace (j_acts j)) <= total id (jail_found ops evs) + extra id ops + R * (restored id ops + commanded id ops).
Proof.
  intros (Nd & Fb & Tr) Qa HR Sn [R3 Rs] E.
  destruct (run_jail orc sub ops (jail_init a) j evs) as (fops & outs & Rn & So & Ns & _ & _ & _ & W & C); auto.
  { apply fresh_wf. split; cbn; [reflexivity|lia]. }
  { split; [now apply wf_bm_fresh|exact Nd]. }
  destruct (gbans_le R id fops (l_fm (j_flt (jail_init a))) (l_fm (j_flt j)) outs) as [_ G]; auto.
  { split; cbn; [reflexivity|lia]. }
  specialize (W id). specialize (C n id). cbn [jail_init j_acts] in C. rewrite Tr, Qa in C. cbn [ban_calls bans] in C. pose proof (bans_nonneg id (as_queue (j_acts j))).
  assert (R * bans id (handed outs) <= wsum id fops) by (destruct (track _ _ _); lia).
  assert (R * ban_calls n id (as_trace (j_acts j)) <= R * (bans id (handed outs) + restored id ops + commanded id ops)) by (apply Z.mul_le_mono_nonneg_l; lia). lia.
Qed.
