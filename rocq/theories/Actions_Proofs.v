(** Lemmas about the actions model. *)
From Verif Require Import Base Ticket_Model BanManager_Model BanManager_Spec BanManager_Proofs
  Actions_Model Actions_Spec.
From Coq Require Import ZifyBool ZifyNat.


Lemma sg_cons k b l k' b' l' : sg ((k, b) :: l) = sg ((k', b') :: l') ->
  k = k' /\ with_acepoch None b = with_acepoch None b' /\ sg l = sg l'.
Proof.
  intros H. pose proof (f_equal (@tl _) H) as HT. pose proof (f_equal (@hd_error _) H) as HH.
  cbn [hd_error sg map] in HH.
  assert (HH' : (k, with_acepoch None b) = (k', with_acepoch None b')) by (cbn in *; congruence).
  split; [exact (f_equal fst HH')|]. split; [exact (f_equal snd HH')|]. exact HT.
Qed.

Lemma sg_keys l l' : sg l = sg l' -> dkeys l = dkeys l'.
Proof.
  assert (G : forall m, map fst (sg m) = dkeys m) by (intros m; unfold sg, dkeys; now rewrite map_map).
  intros H. now rewrite <- !G, H.
Qed.

Lemma sg_dget l l' n a : sg l = sg l' -> dget n l = Some a -> exists a', dget n l' = Some a' /\ same_action a a'.
Proof.
  revert l'. induction l as [|[k b] l IH]; intros [|[k' b'] l'] H G; try discriminate.
  apply sg_cons in H as (-> & Hb & H). cbn in *. destruct (eqb n k').
  - injection G as ->. exists b'. split; [reflexivity|]. exact Hb.
  - eapply IH; eauto.
Qed.

Lemma sg_filter (f : string * action -> bool) l l' : sg l = sg l' ->
  (forall n a e, f (n, with_acepoch e a) = f (n, a)) -> map fst (filter f l) = map fst (filter f l').
Proof.
  intros H Hf. revert l' H. induction l as [|[k b] l IH]; intros [|[k' b'] l'] H; try discriminate; [reflexivity|].
  apply sg_cons in H as (-> & Hb & H). cbn [filter].
  assert (E : f (k', b) = f (k', b')).
  { rewrite <- (Hf k' b None), <- (Hf k' b' None). rewrite Hb. reflexivity. }
  rewrite E. specialize (IH _ H). destruct (f (k', b')); cbn; now rewrite IH.
Qed.

Lemma sg_dset l n a e : dget n l = Some a -> sg (dset n (with_acepoch e a) l) = sg l.
Proof.
  induction l as [|[k b] l IH]; [discriminate|]. cbn. destruct (eqb_spec n k) as [->|N]; intros H.
  - injection H as ->. reflexivity.
  - cbn. f_equal. now apply IH.
Qed.

Lemma sg_ddel l l' n : sg l = sg l' -> sg (ddel n l) = sg (ddel n l').
Proof.
  revert l'. induction l as [|[k b] l IH]; intros [|[k' b'] l'] H; try discriminate; [reflexivity|].
  apply sg_cons in H as (-> & Hb & H). cbn. destruct (eqb n k'); [exact H|]. cbn. f_equal; [|now apply IH].
  unfold with_acepoch in *. cbn in *. congruence.
Qed.

(** The parts of the state that calls do not touch. *)
Definition frame (s s' : acts) : Prop :=
  as_bm s' = as_bm s /\ as_last s' = as_last s /\ as_queue s' = as_queue s
  /\ as_reload s' = as_reload s /\ as_db s' = as_db s /\ sg (as_actions s') = sg (as_actions s).

Lemma frame_refl s : frame s s.
Proof. repeat split. Qed.
Lemma frame_trans a b c : frame a b -> frame b c -> frame a c.
Proof. intros (A1&A2&A3&A4&A5&A6) (B1&B2&B3&B4&B5&B6). repeat split; congruence. Qed.

Section O.
Context (orc : oracle).

Lemma emit_spec c s s' r : emit orc c s = (s', r) ->
  frame s s' /\ as_trace s' = as_trace s ++ [(c, r)] /\ r = orc (as_trace s) c /\ as_epoch s' = as_epoch s.
Proof. intros E. injection E as <- <-. repeat split. Qed.

Lemma act_call_spec n c s s' r : act_call orc n c s = (s', r) ->
  frame s s' /\ as_trace s' = as_trace s ++ [(c, r)] /\ r = orc (as_trace s) c /\ as_epoch s <= as_epoch s'.
Proof.
  unfold act_call. destruct (emit orc c s) as [s1 r1] eqn:E. apply emit_spec in E as (F & T & R & P).
  destruct (r_bump r1).
  - destruct (dget n (as_actions s1)) as [a|] eqn:G; intros X; injection X as <- <-.
    + destruct F as (F1&F2&F3&F4&F5&F6).
      split; [|split; [exact T|split; [exact R|cbn; lia]]]. repeat split; cbn; auto.
      rewrite sg_dset by exact G. exact F6.
    + repeat split; try apply F; auto. lia.
  - intros X; injection X as <- <-. repeat split; try apply F; auto. lia.
Qed.

Lemma call_all_spec mk names : forall s, exists rs,
  let s' := call_all orc mk names s in
  frame s s' /\ as_trace s' = as_trace s ++ combine (map mk names) rs /\ length rs = length names
  /\ as_epoch s <= as_epoch s'.
Proof.
  induction names as [|n names IH]; intros s; cbn zeta; cbn [call_all].
  - exists []. cbn. rewrite app_nil_r. repeat split. lia.
  - destruct (act_call orc n (mk n) s) as [s1 r] eqn:E. cbn [fst].
    apply act_call_spec in E as (F & T & R & P).
    destruct (IH s1) as (rs & F' & T' & L & P'). cbn zeta in *. exists (r :: rs).
    split; [eapply frame_trans; eauto|]. split; [|split; [cbn; lia|lia]].
    rewrite T', T, <- app_assoc. reflexivity.
Qed.

Lemma map_fst_combine {A B} (l : list A) (m : list B) : length m = length l -> map fst (combine l m) = l.
Proof.
  revert m. induction l as [|a l IH]; intros [|b m] H; try discriminate; [reflexivity|].
  cbn. f_equal. apply IH. cbn in H. lia.
Qed.

Lemma call_all_calls mk names s : let s' := call_all orc mk names s in
  frame s s' /\ new_calls s s' (map mk names) /\ as_epoch s <= as_epoch s'.
Proof.
  destruct (call_all_spec mk names s) as (rs & F & T & L & P). cbn zeta in *.
  split; [exact F|]. split; [|exact P]. exists (combine (map mk names) rs). split; [exact T|].
  apply map_fst_combine. now rewrite map_length.
Qed.

Lemma new_calls_refl s s' : as_trace s' = as_trace s -> new_calls s s' [].
Proof. intros H. exists []. rewrite app_nil_r. auto. Qed.
Lemma new_calls_trans a b c x y : new_calls a b x -> new_calls b c y -> new_calls a c (x ++ y).
Proof.
  intros (t1 & E1 & M1) (t2 & E2 & M2). exists (t1 ++ t2).
  rewrite E2, E1, app_assoc, map_app, M1, M2. auto.
Qed.

(** ** mark_banned *)
Lemma mark_banned_spec id s : let s' := mark_banned id s in
  as_trace s' = as_trace s /\ as_actions s' = as_actions s /\ as_queue s' = as_queue s /\ as_db s' = as_db s
  /\ as_last s' = as_last s /\ as_epoch s' = as_epoch s /\ as_reload s' = as_reload s
  /\ ban_list (as_bm s') = ban_list (as_bm s)
  /\ bm_time (as_bm s') = bm_time (as_bm s) /\ bm_next (as_bm s') = bm_next (as_bm s)
  /\ bm_total (as_bm s') = bm_total (as_bm s)
  /\ (forall i, i <> id -> dget i (bm_list (as_bm s')) = dget i (bm_list (as_bm s)))
  /\ (forall t, dget id (bm_list (as_bm s)) = Some t ->
      dget id (bm_list (as_bm s')) = Some (with_epoch (if as_epoch s =? 0 then t_epoch t else as_epoch s) (with_banned true t))).
Proof.
  cbn zeta. unfold mark_banned. destruct (dget id (bm_list (as_bm s))) as [t|] eqn:E.
  - cbn [with_bm as_trace as_actions as_queue as_db as_last as_epoch as_reload as_bm bm_list bm_with_list bm_time bm_next bm_total].
    repeat (split; [reflexivity|]). split; [|split; [reflexivity|split; [reflexivity|split; [reflexivity|split]]]].
    + unfold ban_list. cbn. apply dkeys_dset_mem. eapply dget_key; eauto.
    + intros i N. now rewrite dget_dset_other.
    + intros t' X. injection X as <-. rewrite dget_dset_same. destruct (as_epoch s =? 0); [|reflexivity].
      destruct t; reflexivity.
  - repeat (split; [reflexivity|]). discriminate.
Qed.

Lemma ban_list_In id bm : In id (ban_list bm) <-> dmem id (bm_list bm) = true.
Proof. unfold ban_list. symmetry. apply dmem_In. Qed.

(** ** C11 *)
Lemma fresh_ban s tk now ra :
  end_of_ban (bm_time (as_bm s)) tk >= now -> ~ is_banned (t_id tk) s ->
  exists s', check_ban_one orc tk now ra s = (s', Some (1%nat, ra))
  /\ new_calls s s' ((if t_restored tk then [] else [CObserver (t_id tk)])
                     ++ map (fun n => CBan n (t_id tk))
                            (map fst (filter (fun kv => negb (t_restored tk && ac_norestored (snd kv))) (as_actions s))))
  /\ banned_ids s' = banned_ids s ++ [t_id tk]
  /\ (exists t, dget (t_id tk) (bm_list (as_bm s')) = Some t /\ t_banned t = true /\ t_id t = t_id tk
                /\ t_time t = t_time tk /\ t_bantime t = t_bantime tk)
  /\ (forall i, i <> t_id tk -> dget i (bm_list (as_bm s')) = dget i (bm_list (as_bm s)))
  /\ as_queue s' = as_queue s /\ as_db s' = as_db s /\ as_reload s' = as_reload s
  /\ sg (as_actions s') = sg (as_actions s) /\ bm_time (as_bm s') = bm_time (as_bm s)
  /\ bm_next (as_bm s') = Z.min (bm_next (as_bm s)) (end_of_ban (bm_time (as_bm s)) tk).
Proof.
  intros He Hn. unfold check_ban_one, ban_begin.
  assert (Hg : dget (t_id tk) (bm_list (as_bm s)) = None).
  { destruct (dget (t_id tk) (bm_list (as_bm s))) eqn:G; [|reflexivity]. exfalso. apply Hn.
    unfold is_banned, banned_ids. apply ban_list_In. now rewrite dmem_dget, G. }
  unfold add_ban. change (t_id (with_isban true tk)) with (t_id tk).
  change (end_of_ban (bm_time (as_bm s)) (with_isban true tk)) with (end_of_ban (bm_time (as_bm s)) tk).
  destruct (Z.ltb_spec (end_of_ban (bm_time (as_bm s)) tk) now) as [L|_]; [lia|].
  rewrite Hg.
  set (bm' := mkBM _ _ _ _).
  set (s1 := if t_restored tk then with_bm bm' s else fst (emit orc (CObserver (t_id tk)) (with_bm bm' s))).
  assert (H1 : frame (with_bm bm' s) s1 /\ new_calls s s1 (if t_restored tk then [] else [CObserver (t_id tk)])).
  { unfold s1. destruct (t_restored tk).
    - split; [apply frame_refl|]. now apply new_calls_refl.
    - destruct (emit orc _ _) as [s2 r] eqn:E. cbn [fst]. apply emit_spec in E as (F & T & _ & _).
      split; [exact F|]. exists [(CObserver (t_id tk), r)]. auto. }
  clearbody s1. destruct H1 as [F1 N1].
  cbn iota beta.
  eexists. split; [reflexivity|]. unfold ban_actions.
  destruct (call_all_calls (fun n => CBan n (t_id tk)) (asked (t_restored tk) (as_actions s1)) s1) as (F2 & N2 & P2).
  cbn zeta in *. set (s2 := call_all _ _ _ _) in *.
  pose proof (mark_banned_spec (t_id tk) s2) as M. cbn zeta in M. set (s3 := mark_banned (t_id tk) s2) in *.
  destruct M as (M1&M2&M3&M4&M5&M6&M7&M8&M9&M10&M11&M12&M13).
  assert (F12 := frame_trans _ _ _ F1 F2). destruct F12 as (G1&G2&G3&G4&G5&G6). cbn in G1, G2, G3, G4, G5, G6.
  assert (Hb : bm_list bm' = dset (t_id tk) (incr_bancount (with_isban true tk)) (bm_list (as_bm s))) by reflexivity.
  split; [|split; [|split; [|split; [|split; [|split; [|split; [|split; [|split]]]]]]]].
  - eapply new_calls_trans; [exact N1|]. destruct N2 as (tr & T & MM). exists tr. rewrite M1. split; [exact T|].
    rewrite MM. f_equal. unfold asked. apply sg_filter; [|reflexivity].
    destruct F1 as (_&_&_&_&_&X). exact X.
  - unfold banned_ids. rewrite M8, G1. unfold ban_list. rewrite Hb. rewrite dset_notin.
    + now rewrite dkeys_app.
    + intros I. apply dmem_In in I. rewrite dmem_dget, Hg in I. discriminate.
  - rewrite (M13 (incr_bancount (with_isban true tk))).
    + eexists. split; [reflexivity|]. cbn. auto.
    + rewrite G1, Hb. apply dget_dset_same.
  - intros i N. rewrite M12 by exact N. rewrite G1, Hb. now rewrite dget_dset_other.
  - rewrite M3. exact G3.
  - rewrite M4. exact G5.
  - rewrite M7. exact G4.
  - rewrite M2. exact G6.
  - rewrite M9, G1. reflexivity.
  - rewrite M10, G1. unfold bm'. cbn [bm_next].
    destruct (Z.gtb_spec (bm_next (as_bm s)) (end_of_ban (bm_time (as_bm s)) tk)); lia.
Qed.

Lemma unban_each_calls names l : forall s, let s' := unban_each orc names l s in
  frame s s' /\ new_calls s s' (flat_map (fun t => map (fun n => CUnban n (t_id t)) names) l).
Proof.
  induction l as [|t l IH]; intros s; cbn zeta; cbn [unban_each flat_map].
  - split; [apply frame_refl | now apply new_calls_refl].
  - destruct (call_all_calls (fun n => CUnban n (t_id t)) names s) as (F & N & _). cbn zeta in *.
    destruct (IH (unban_one orc names t s)) as (F' & N'). cbn zeta in *.
    split; [eapply frame_trans; eauto | eapply new_calls_trans; eauto].
Qed.
End O.

(** ** Flushing *)
Lemma in_bulk_app t1 t2 n a : in_bulk (t1 ++ t2) n a = in_bulk t1 n a || in_bulk t2 n a.
Proof. unfold in_bulk. rewrite existsb_app. now destruct (ac_flush a). Qed.


Lemma in_bulk_about tr l n a : Forall (about l) tr -> ~ In n l -> in_bulk tr n a = false.
Proof.
  intros H N. unfold in_bulk. destruct (ac_flush a); [|reflexivity]. cbn.
  induction H as [|[c r] tr (m & I & E) _ IH]; cbn; [reflexivity|]. rewrite IH, orb_false_r. cbn in E.
  destruct E as [->| ->]; [|reflexivity]. destruct (eqb_spec m n) as [->|]; [contradiction | reflexivity].
Qed.


Section O2.
Context (orc : oracle).

Lemma flush_loop_spec l : forall s s' names, NoDup (dkeys l) -> flush_loop orc l s = (s', Some names) ->
  exists ftr, as_trace s' = as_trace s ++ ftr /\ frame s s'
   /\ names = map fst (filter (fun kv => negb (in_bulk ftr (fst kv) (snd kv))) l)
   /\ filter is_flush (map fst ftr) = map CFlush (map fst (filter (fun kv => ac_flush (snd kv)) l))
   /\ Forall (about (dkeys l)) ftr.
Proof.
  induction l as [|[n a] l IH]; intros s s' names Hnd E; cbn [flush_loop] in E.
  - injection E as <- <-. exists []. rewrite app_nil_r. repeat split. constructor.
  - inversion Hnd as [|? ? Hni Hnd']; subst. fold (dkeys l) in Hni, Hnd'.
    assert (Hab : forall tr, Forall (about (dkeys l)) tr -> Forall (about (dkeys ((n, a) :: l))) tr).
    { intros tr H. eapply Forall_impl; [|exact H]. intros ev (m & I & X). exists m. cbn. auto. }
    assert (Hfil : forall own ftr, Forall (about [n]) own -> Forall (about (dkeys l)) ftr ->
              map fst (filter (fun kv => negb (in_bulk (own ++ ftr) (fst kv) (snd kv))) l)
              = map fst (filter (fun kv => negb (in_bulk ftr (fst kv) (snd kv))) l)).
    { intros own ftr Ho Hf. f_equal. apply filter_ext_in. intros [m b] I. cbn. f_equal. rewrite in_bulk_app.
      rewrite (in_bulk_about own [n]); [reflexivity|exact Ho|]. intros [->|[]]. apply Hni.
      apply in_map_iff. exists (m, b). auto. }
    (* the action is asked to unban ticket by ticket *)
    assert (Hkeep : forall s1 own, as_trace s1 = as_trace s ++ own -> frame s s1 -> Forall (about [n]) own ->
              in_bulk own n a = false ->
              filter is_flush (map fst own) = (if ac_flush a then [CFlush n] else []) ->
              (match flush_loop orc l s1 with (s2, Some k) => (s2, Some (n :: k)) | (s2, None) => (s2, None) end) = (s', Some names) ->
              exists ftr, as_trace s' = as_trace s ++ ftr /\ frame s s'
               /\ names = map fst (filter (fun kv => negb (in_bulk ftr (fst kv) (snd kv))) ((n, a) :: l))
               /\ filter is_flush (map fst ftr) = map CFlush (map fst (filter (fun kv => ac_flush (snd kv)) ((n, a) :: l)))
               /\ Forall (about (dkeys ((n, a) :: l))) ftr).
    { intros s1 own T F Ho Hb Hfl X. destruct (flush_loop orc l s1) as [s2 [k|]] eqn:E2; [|discriminate].
      injection X as <- <-. destruct (IH _ _ _ Hnd' E2) as (ftr & T2 & F2 & -> & Hfl2 & Hab2).
      exists (own ++ ftr). split; [rewrite T2, T, app_assoc; reflexivity|].
      split; [eapply frame_trans; eauto|]. split; [|split].
      - cbn [filter fst snd]. rewrite in_bulk_app, Hb. rewrite (in_bulk_about ftr (dkeys l)) by assumption. cbn.
        f_equal. symmetry. now apply Hfil.
      - rewrite map_app, filter_app, Hfl, Hfl2. cbn [filter snd]. now destruct (ac_flush a).
      - apply Forall_app. split; [|auto]. eapply Forall_impl; [|exact Ho].
        intros ev (m & [->|[]] & Y). exists m. cbn. auto. }
    (* the action is done *)
    assert (Hdone : forall s1 own, as_trace s1 = as_trace s ++ own -> frame s s1 -> Forall (about [n]) own ->
              in_bulk own n a = true ->
              filter is_flush (map fst own) = [CFlush n] -> ac_flush a = true ->
              flush_loop orc l s1 = (s', Some names) ->
              exists ftr, as_trace s' = as_trace s ++ ftr /\ frame s s'
               /\ names = map fst (filter (fun kv => negb (in_bulk ftr (fst kv) (snd kv))) ((n, a) :: l))
               /\ filter is_flush (map fst ftr) = map CFlush (map fst (filter (fun kv => ac_flush (snd kv)) ((n, a) :: l)))
               /\ Forall (about (dkeys ((n, a) :: l))) ftr).
    { intros s1 own T F Ho Hb Hfl Ha E2. destruct (IH _ _ _ Hnd' E2) as (ftr & T2 & F2 & -> & Hfl2 & Hab2).
      exists (own ++ ftr). split; [rewrite T2, T, app_assoc; reflexivity|].
      split; [eapply frame_trans; eauto|]. split; [|split].
      - cbn [filter fst snd]. rewrite in_bulk_app, Hb. cbn. symmetry. now apply Hfil.
      - rewrite map_app, filter_app, Hfl, Hfl2. cbn [filter snd]. now rewrite Ha.
      - apply Forall_app. split; [|auto]. eapply Forall_impl; [|exact Ho].
        intros ev (m & [->|[]] & Y). exists m. cbn. auto. }
    destruct (ac_flush a) eqn:Ea.
    + destruct (act_call orc n (CFlush n) s) as [s1 r] eqn:E1. apply act_call_spec in E1 as (F1 & T1 & _ & _).
      assert (Ho1 : Forall (about [n]) [(CFlush n, r)]).
      { constructor; [|constructor]. exists n. cbn; auto. }
      destruct (r_raise r) eqn:Er.
      * destruct (ac_check a) eqn:Ec.
        -- destruct (act_call orc n (CCheck n) s1) as [s2 rc] eqn:E2. apply act_call_spec in E2 as (F2 & T2 & _ & _).
           destruct (r_raise rc); [discriminate|].
           apply (Hdone s2 [(CFlush n, r); (CCheck n, rc)]); auto.
           ++ rewrite T2, T1, <- app_assoc. reflexivity.
           ++ eapply frame_trans; eauto.
           ++ constructor; [exists n; cbn; auto|]. constructor; [exists n; cbn; auto|constructor].
           ++ unfold in_bulk. rewrite Ea. cbn. rewrite eqb_refl, Er, Ec. reflexivity.
        -- apply (Hkeep s1 [(CFlush n, r)]); auto.
           unfold in_bulk. rewrite Ea. cbn. rewrite eqb_refl, Er, Ec. reflexivity.
      * destruct (r_true r) eqn:Et.
        -- apply (Hdone s1 [(CFlush n, r)]); auto.
           unfold in_bulk. rewrite Ea. cbn. rewrite eqb_refl, Er, Et. reflexivity.
        -- apply (Hkeep s1 [(CFlush n, r)]); auto.
           unfold in_bulk. rewrite Ea. cbn. rewrite eqb_refl, Er, Et. reflexivity.
    + apply (Hkeep s []); auto.
      * now rewrite app_nil_r.
      * apply frame_refl.
      * unfold in_bulk. now rewrite Ea.
Qed.

Lemma flush_loop_quiet l : quiet_checks orc -> forall s, snd (flush_loop orc l s) <> None.
Proof.
  intros Q. induction l as [|[n a] l IH]; intros s; cbn [flush_loop]; [discriminate|].
  assert (K : forall s1, snd (match flush_loop orc l s1 with (s2, Some k) => (s2, Some (n :: k)) | (s2, None) => (s2, None) end) <> None).
  { intros s1. specialize (IH s1). destruct (flush_loop orc l s1) as [s2 [k|]]; cbn in *; congruence. }
  destruct (ac_flush a); [|apply K].
  destruct (act_call orc n (CFlush n) s) as [s1 r]. destruct (r_raise r).
  - destruct (ac_check a); [|apply K]. destruct (act_call orc n (CCheck n) s1) as [s2 rc] eqn:E.
    apply act_call_spec in E as (_ & _ & -> & _). rewrite Q. apply IH.
  - destruct (r_true r); [apply IH | apply K].
Qed.

Lemma map_tid_vals (l : dict string ticket) : dwf l -> (forall k t, dget k l = Some t -> t_id t = k) ->
  map t_id (dvals l) = dkeys l.
Proof.
  intros Hd Hk. unfold dvals, dkeys. rewrite map_map. apply map_ext_in. intros [k t] I. cbn.
  apply Hk. now apply In_dget.
Qed.

Lemma flat_map_ids (names : list string) (l : list ticket) :
  flat_map (fun t => map (fun n => CUnban n (t_id t)) names) l
  = flat_map (fun id => map (fun n => CUnban n id) names) (map t_id l).
Proof. induction l as [|t l IH]; cbn; [reflexivity|]. now rewrite IH. Qed.

Lemma flush_ban_all db s s' k : NoDup (action_names s) -> wf_bm (as_bm s) ->
  flush_ban orc db None s = (s', Some k) ->
  k = length (banned_ids s) /\ bm_list (as_bm s') = []
  /\ sg (as_actions s') = sg (as_actions s) /\ as_queue s' = as_queue s /\ wf_bm (as_bm s')
  /\ exists ftr rest, as_trace s' = as_trace s ++ ftr ++ rest
     /\ filter is_flush (map fst ftr) = map CFlush (map fst (filter (fun kv => ac_flush (snd kv)) (as_actions s)))
     /\ Forall (about (action_names s)) ftr
     /\ map fst rest = (if db && as_db s then [CDbDel None] else [])
          ++ flat_map (fun id => map (fun n => CUnban n id)
               (map fst (filter (fun kv => negb (in_bulk ftr (fst kv) (snd kv))) (as_actions s)))) (banned_ids s).
Proof.
  intros Hnd [Hd Hk] E. unfold flush_ban, flush_ban_list in E. cbn [fst snd] in E.
  set (s1 := with_bm (bm_with_list [] (as_bm s)) s) in E.
  change (as_actions s1) with (as_actions s) in E.
  destruct (flush_loop orc (as_actions s) s1) as [s2 [names|]] eqn:E2; [|discriminate].
  cbv zeta in E.
  destruct (flush_loop_spec _ _ _ _ Hnd E2) as (ftr & T & F & -> & Hfl & Hab).
  set (s3 := if db && as_db s2 then fst (emit orc (CDbDel None) s2) else s2) in E.
  assert (Hdb : as_db s2 = as_db s) by (destruct F as (_&_&_&_&X&_); exact X).
  assert (H3 : frame s2 s3 /\ new_calls s2 s3 (if db && as_db s then [CDbDel None] else [])).
  { unfold s3. rewrite Hdb. destruct (db && as_db s).
    - destruct (emit orc _ _) as [s4 r] eqn:E4. cbn [fst]. apply emit_spec in E4 as (F4 & T4 & _ & _).
      split; [exact F4|]. exists [(CDbDel None, r)]. auto.
    - split; [apply frame_refl | now apply new_calls_refl]. }
  clearbody s3. destruct H3 as [F3 N3].
  match type of E with (unban_each orc ?nm ?l s3, _) = _ => destruct (unban_each_calls orc nm l s3) as (F5 & N5) end.
  cbn zeta in *. injection E as <- <-.
  assert (FF := frame_trans _ _ _ F (frame_trans _ _ _ F3 F5)). destruct FF as (G1&G2&G3&G4&G5&G6).
  split; [unfold banned_ids, ban_list, dkeys, dvals; now rewrite !map_length|].
  split; [rewrite G1; reflexivity|]. split; [exact G6|]. split; [exact G3|].
  split. { rewrite G1. split; [apply dwf_nil | discriminate]. }
  destruct (new_calls_trans _ _ _ _ _ N3 N5) as (rest & Tr & Mr).
  exists ftr, rest. split; [rewrite Tr, T, <- app_assoc; reflexivity|].
  split; [exact Hfl|]. split; [exact Hab|]. rewrite Mr, flat_map_ids. f_equal. f_equal.
  unfold banned_ids, ban_list. symmetry. now rewrite map_tid_vals.
Qed.

(** ** C12: the firewall automaton *)
Definition fwst (b : bool) : fw := if b then Opened else Closed.
Definition inert (c : call) : bool :=
  match c with CBan _ _ | CUnban _ _ | CFlush _ => false | _ => true end.
Definition fwf (name id : string) (tr : trace) (st : fw) : fw := fold_left (fw1 name id) tr st.

Lemma fwf_app name id t1 t2 st : fwf name id (t1 ++ t2) st = fwf name id t2 (fwf name id t1 st).
Proof. apply fold_left_app. Qed.

Lemma fw1_inert name id st ev : inert (fst ev) = true -> fw1 name id st ev = st.
Proof. destruct ev as [[] r], st; cbn; try discriminate; reflexivity. Qed.

Lemma fwf_inert name id tr st : forallb inert (map fst tr) = true -> fwf name id tr st = st.
Proof.
  unfold fwf. revert st. induction tr as [|ev tr IH]; intros st H; [reflexivity|]. cbn in *.
  apply andb_true_iff in H as [H1 H2]. rewrite fw1_inert by exact H1. now apply IH.
Qed.

Lemma fwf_unbans name id i names : NoDup names -> forall tr st, map fst tr = map (fun n => CUnban n i) names ->
  fwf name id tr st = if inb name names && eqb i id
                      then match st with Opened => Closed | _ => Broken end else st.
Proof.
  induction 1 as [|n names Hni Hnd IH]; intros tr st E.
  - destruct tr; [reflexivity|discriminate].
  - destruct tr as [|[c r] tr]; [discriminate|]. cbn in E. injection E as -> E.
    change (fwf name id ((CUnban n i, r) :: tr) st) with (fwf name id tr (fw1 name id st (CUnban n i, r))).
    rewrite (IH tr _ E). cbn [inb existsb]. rewrite (eqb_sym name n).
    destruct (eqb_spec n name) as [->|N].
    + assert (X : inb name names = false) by now apply inb_false. unfold inb in *. rewrite X. cbn [orb andb].
      destruct st; cbn; rewrite ?eqb_refl; cbn; destruct (eqb i id); reflexivity.
    + cbn [orb]. replace (fw1 name id st (CUnban n i, r)) with st; [reflexivity|].
      destruct st; cbn; destruct (eqb_spec n name); try contradiction; reflexivity.
Qed.

Lemma fwf_bans name id i names : NoDup names -> forall tr st, map fst tr = map (fun n => CBan n i) names ->
  fwf name id tr st = if inb name names && eqb i id
                      then match st with Closed => Opened | _ => Broken end else st.
Proof.
  induction 1 as [|n names Hni Hnd IH]; intros tr st E.
  - destruct tr; [reflexivity|discriminate].
  - destruct tr as [|[c r] tr]; [discriminate|]. cbn in E. injection E as -> E.
    change (fwf name id ((CBan n i, r) :: tr) st) with (fwf name id tr (fw1 name id st (CBan n i, r))).
    rewrite (IH tr _ E). cbn [inb existsb]. rewrite (eqb_sym name n).
    destruct (eqb_spec n name) as [->|N].
    + assert (X : inb name names = false) by now apply inb_false. unfold inb in *. rewrite X. cbn [orb andb].
      destruct st; cbn; rewrite ?eqb_refl; cbn; destruct (eqb i id); reflexivity.
    + cbn [orb]. replace (fw1 name id st (CBan n i, r)) with st; [reflexivity|].
      destruct st; cbn; destruct (eqb_spec n name); try contradiction; reflexivity.
Qed.

(** unbans of several IDs *)
Lemma fwf_unbans_each name id names : NoDup names -> forall ids tr st, NoDup ids ->
  map fst tr = flat_map (fun i => map (fun n => CUnban n i) names) ids ->
  (inb name names = true -> inb id ids = true -> st = Opened) ->
  fwf name id tr st = if inb name names && inb id ids then Closed else st.
Proof.
  intros Hn. induction ids as [|i ids IH]; intros tr st Hi E Hst.
  - destruct tr; [|discriminate]. cbn. now rewrite andb_false_r.
  - cbn [flat_map] in E. inversion Hi as [|? ? Hni Hnd]; subst.
    assert (X : exists t1 t2, tr = t1 ++ t2 /\ map fst t1 = map (fun n => CUnban n i) names
                 /\ map fst t2 = flat_map (fun i => map (fun n => CUnban n i) names) ids).
    { exists (firstn (length names) tr), (skipn (length names) tr). rewrite firstn_skipn. split; [reflexivity|].
      rewrite <- firstn_map, <- skipn_map, E.
      assert (L : length names = length (map (fun n => CUnban n i) names)) by now rewrite map_length.
      rewrite L, firstn_app, skipn_app, firstn_all, skipn_all, Nat.sub_diag. cbn. now rewrite app_nil_r. }
    destruct X as (t1 & t2 & -> & E1 & E2). rewrite fwf_app, (fwf_unbans name id i names Hn t1 st E1).
    change (inb id (i :: ids)) with (eqb id i || inb id ids) in *.
    rewrite (eqb_sym id i) in *. destruct (eqb_spec i id) as [->|N].
    + cbn [orb] in *. rewrite !andb_true_r.
      destruct (inb name names) eqn:In1.
      * rewrite (Hst eq_refl eq_refl). rewrite (IH t2 Closed Hnd E2).
        -- now destruct (inb id ids).
        -- intros _ Y. exfalso. apply inb_In in Y. contradiction.
      * rewrite (IH t2 st Hnd E2); [reflexivity | discriminate].
    + cbn [orb] in *. rewrite andb_false_r. apply IH; auto.
Qed.
End O2.

Lemma dmem_ban_list a b id : ban_list a = ban_list b -> dmem id (bm_list a) = dmem id (bm_list b).
Proof.
  intros H. apply Bool.eq_true_iff_eq. rewrite <- !ban_list_In, H. reflexivity.
Qed.

Section O3.
Context (orc : oracle).

(** Calls and updates that change neither the registry nor the banned IDs, and only make
    calls that the firewall automaton ignores. *)
Definition quiet (s s' : acts) : Prop :=
  wf_bm (as_bm s) ->
  wf_bm (as_bm s') /\ ban_list (as_bm s') = ban_list (as_bm s) /\ sg (as_actions s') = sg (as_actions s)
  /\ as_queue s' = as_queue s /\ as_db s' = as_db s /\ as_reload s' = as_reload s
  /\ bm_time (as_bm s') = bm_time (as_bm s) /\ (next_ok (as_bm s) -> next_ok (as_bm s'))
  /\ exists tr, as_trace s' = as_trace s ++ tr /\ forallb inert (map fst tr) = true.

Lemma quiet_refl s : quiet s s.
Proof. intros W. repeat (split; [auto|]). exists []. now rewrite app_nil_r. Qed.

Lemma quiet_trans a b c : quiet a b -> quiet b c -> quiet a c.
Proof.
  intros H1 H2 W. destruct (H1 W) as (W1&A1&B1&C1&D1&R1&M1&X1&t1&E1&I1). destruct (H2 W1) as (W2&A2&B2&C2&D2&R2&M2&X2&t2&E2&I2).
  repeat (split; [congruence|]). split; [auto|]. exists (t1 ++ t2). rewrite E2, E1, app_assoc, map_app, forallb_app, I1, I2. auto.
Qed.

Lemma quiet_frame s s' tr : frame s s' -> as_trace s' = as_trace s ++ tr -> forallb inert (map fst tr) = true ->
  quiet s s'.
Proof.
  intros (F1&F2&F3&F4&F5&F6) T I W. rewrite F1. repeat (split; [auto|]). eauto.
Qed.

Lemma quiet_act_call n c s s' r : inert c = true -> act_call orc n c s = (s', r) -> quiet s s'.
Proof.
  intros I E. apply act_call_spec in E as (F & T & _ & _). eapply quiet_frame; eauto. cbn. now rewrite I.
Qed.

Lemma quiet_emit c s s' r : inert c = true -> emit orc c s = (s', r) -> quiet s s'.
Proof.
  intros I E. apply emit_spec in E as (F & T & _ & _). eapply quiet_frame; eauto. cbn. now rewrite I.
Qed.

Lemma quiet_call_all mk names s : (forall n, inert (mk n) = true) -> quiet s (call_all orc mk names s).
Proof.
  intros I. revert s. induction names as [|n names IH]; intros s; cbn [call_all]; [apply quiet_refl|].
  destruct (act_call orc n (mk n) s) as [s1 r] eqn:E. cbn [fst].
  apply (quiet_trans _ s1); [|apply IH]. exact (quiet_act_call _ _ _ _ _ (I n) E).
Qed.

Lemma quiet_mark id s : quiet s (mark_banned id s).
Proof.
  intros W. pose proof (mark_banned_spec id s) as (M1&M2&M3&M4&M5&M6&M7&M8&M9&M10&M11&M12&M13). cbn zeta in *.
  split; [|split; [exact M8|]].
  - destruct W as [Hd Hk]. split.
    + unfold dwf, ban_list in *. rewrite M8. exact Hd.
    + intros k t. destruct (eqb_spec k id) as [->|N].
      * destruct (dget id (bm_list (as_bm s))) as [t0|] eqn:G.
        -- rewrite (M13 _ eq_refl). intros X. injection X as <-. cbn. now apply Hk.
        -- intros X. exfalso. apply dget_key in X. fold (ban_list (as_bm (mark_banned id s))) in X.
           rewrite M8 in X. apply ban_list_In in X. rewrite dmem_dget, G in X. discriminate.
      * rewrite M12 by exact N. apply Hk.
  - rewrite M2, M3, M4, M7, M9. repeat (split; [reflexivity|]). split; [|exists []; now rewrite app_nil_r].
    intros [X1 X2]. split; [now rewrite M10|]. intros k t I. rewrite M9, M10.
    assert (Wm : dwf (bm_list (as_bm (mark_banned id s)))).
    { unfold dwf. change (dkeys (bm_list (as_bm (mark_banned id s)))) with (ban_list (as_bm (mark_banned id s))).
      rewrite M8. exact (proj1 W). }
    apply In_dget in I; [|exact Wm]. destruct (eqb_spec k id) as [->|N].
    + destruct (dget id (bm_list (as_bm s))) as [t0|] eqn:G.
      * rewrite (M13 _ eq_refl) in I. injection I as <-.
        apply dget_In in G. exact (X2 _ _ G).
      * exfalso. apply dget_key in I. fold (ban_list (as_bm (mark_banned id s))) in I.
        rewrite M8 in I. apply ban_list_In in I. rewrite dmem_dget, G in I. discriminate.
    + rewrite M12 in I by exact N. apply dget_In in I. exact (X2 _ _ I).
Qed.

Lemma quiet_reban_loop id names s s' b : reban_loop orc id names s = (s', b) -> quiet s s'.
Proof.
  revert s. induction names as [|n names IH]; intros s; cbn [reban_loop check_loop].
  - intros E. injection E as <- _. apply quiet_refl.
  - destruct (act_call orc n (CReban n id) s) as [s1 r] eqn:E1.
    assert (Q : quiet s s1) by (eapply quiet_act_call; eauto; reflexivity).
    destruct (r_raise r); intros E; [injection E as <- _; exact Q|].
    eapply quiet_trans; [exact Q | now apply IH].
Qed.

Lemma quiet_reban id names s s' c : reban orc id names s = (s', c) -> quiet s s'.
Proof.
  unfold reban. destruct (reban_loop _ _ _ _) as [s1 []] eqn:E; intros X; injection X as <- _.
  - eapply quiet_trans; [eapply quiet_reban_loop; eauto | apply quiet_mark].
  - eapply quiet_reban_loop; eauto.
Qed.

Lemma quiet_check_loop names s s' b : check_loop orc names s = (s', b) -> quiet s s'.
Proof.
  revert s. induction names as [|n names IH]; intros s; cbn [reban_loop check_loop].
  - intros E. injection E as <- _. apply quiet_refl.
  - destruct (act_call orc n (CCheck n) s) as [s1 r] eqn:E1.
    assert (Q : quiet s s1) by (eapply quiet_act_call; eauto; reflexivity).
    destruct (r_raise r); intros E; [injection E as <- _; exact Q|].
    eapply quiet_trans; [exact Q | now apply IH].
Qed.

Lemma quiet_last v s : quiet s (with_last v s).
Proof. intros W. repeat (split; [auto|]). exists []. now rewrite app_nil_r. Qed.

Lemma quiet_add_known tk now s bm r : add_ban (as_bm s) tk now = (bm, r) -> r <> AAdded -> quiet s (with_bm bm s).
Proof.
  intros E N W. assert (W' : wf_bm bm).
  { pose proof (wf_bm_step (as_bm s) (BAdd tk now) W) as X. cbn in X. rewrite E in X. exact X. }
  split; [exact W'|].
  assert (X : ban_list bm = ban_list (as_bm s) /\ bm_time bm = bm_time (as_bm s)).
  { unfold add_ban in E. destruct (_ <? now); [injection E as <- _; auto|].
    destruct (dget (t_id tk) (bm_list (as_bm s))) eqn:G; [|congruence].
    destruct (_ >? _); injection E as <- _; [|auto]. split; [|reflexivity].
    unfold ban_list. cbn. apply dkeys_dset_mem. eapply dget_key; eauto. }
  destruct X as [X1 X2]. do 6 (split; [auto|]). split; [|exists []; now rewrite app_nil_r].
  intros HN. pose proof (next_step (as_bm s) (BAdd tk now) W HN I) as X. cbn in X. now rewrite E in X.
Qed.

Lemma check_ban_one_cases tk now ra s s' r : check_ban_one orc tk now ra s = (s', r) ->
  (end_of_ban (bm_time (as_bm s)) tk >= now /\ ~ is_banned (t_id tk) s) \/ quiet s s'.
Proof.
  unfold check_ban_one, ban_begin.
  destruct (add_ban (as_bm s) (with_isban true tk) now) as [bm ar] eqn:Ea.
  destruct ar.
  - intros E. injection E as <- _. right. eapply quiet_add_known; [exact Ea|discriminate].
  - intros _. left. unfold add_ban in Ea. change (t_id (with_isban true tk)) with (t_id tk) in Ea.
    change (end_of_ban (bm_time (as_bm s)) (with_isban true tk)) with (end_of_ban (bm_time (as_bm s)) tk) in Ea.
    destruct (Z.ltb_spec (end_of_ban (bm_time (as_bm s)) tk) now); [discriminate|]. split; [lia|].
    destruct (dget (t_id tk) (bm_list (as_bm s))) eqn:G; [destruct (_ >? _); discriminate|].
    intros I. apply ban_list_In in I. rewrite dmem_dget, G in I. discriminate.
  - intros E. right. assert (Q : quiet s (with_bm bm s)) by (eapply quiet_add_known; [exact Ea|discriminate]).
    set (s1 := with_bm bm s) in *. clearbody s1. clear Ea.
    eapply quiet_trans; [exact Q|]. clear Q. revert E.
    destruct (dget (t_id tk) (bm_list (as_bm s1))) as [b|]; [|intros E; injection E as <- _; apply quiet_refl].
    destruct (t_banned b).
    + match goal with |- context [if ?c then check_loop _ _ _ else _] => destruct c end.
      * destruct (check_loop orc _ _) as [s2 ok] eqn:Ec.
        assert (Q2 : quiet s1 s2) by (eapply quiet_trans; [apply quiet_last | eapply quiet_check_loop; eauto]).
        destruct ok; [|intros E; injection E as <- _; exact Q2].
        destruct (t_epoch b <? as_epoch s2); [|intros E; injection E as <- _; exact Q2].
        match goal with |- context [match ?x with Some _ => _ | None => _ end] => destruct x end;
          [|intros E; injection E as <- _; exact Q2].
        destruct (reban orc (t_id tk) l s2) as [s3 c] eqn:Er. intros E; injection E as <- _.
        eapply quiet_trans; [exact Q2 | eapply quiet_reban; eauto].
      * destruct (t_epoch b <? as_epoch s1); [|intros E; injection E as <- _; apply quiet_refl].
        match goal with |- context [match ?x with Some _ => _ | None => _ end] => destruct x end;
          [|intros E; injection E as <- _; apply quiet_refl].
        destruct (reban orc (t_id tk) l s1) as [s3 c] eqn:Er. intros E; injection E as <- _.
        eapply quiet_reban; eauto.
    + destruct (reban orc (t_id tk) [] s1) as [s3 c] eqn:Er. intros E; injection E as <- _.
      eapply quiet_reban; eauto.
  - intros E. right. assert (Q : quiet s (with_bm bm s)) by (eapply quiet_add_known; [exact Ea|discriminate]).
    set (s1 := with_bm bm s) in *. clearbody s1. clear Ea.
    eapply quiet_trans; [exact Q|]. clear Q. revert E.
    destruct (dget (t_id tk) (bm_list (as_bm s1))) as [b|]; [|intros E; injection E as <- _; apply quiet_refl].
    destruct (t_banned b).
    + match goal with |- context [if ?c then check_loop _ _ _ else _] => destruct c end.
      * destruct (check_loop orc _ _) as [s2 ok] eqn:Ec.
        assert (Q2 : quiet s1 s2) by (eapply quiet_trans; [apply quiet_last | eapply quiet_check_loop; eauto]).
        destruct ok; [|intros E; injection E as <- _; exact Q2].
        destruct (t_epoch b <? as_epoch s2); [|intros E; injection E as <- _; exact Q2].
        match goal with |- context [match ?x with Some _ => _ | None => _ end] => destruct x end;
          [|intros E; injection E as <- _; exact Q2].
        destruct (reban orc (t_id tk) l s2) as [s3 c] eqn:Er. intros E; injection E as <- _.
        eapply quiet_trans; [exact Q2 | eapply quiet_reban; eauto].
      * destruct (t_epoch b <? as_epoch s1); [|intros E; injection E as <- _; apply quiet_refl].
        match goal with |- context [match ?x with Some _ => _ | None => _ end] => destruct x end;
          [|intros E; injection E as <- _; apply quiet_refl].
        destruct (reban orc (t_id tk) l s1) as [s3 c] eqn:Er. intros E; injection E as <- _.
        eapply quiet_reban; eauto.
    + destruct (reban orc (t_id tk) [] s1) as [s3 c] eqn:Er. intros E; injection E as <- _.
      eapply quiet_reban; eauto.
Qed.

(** ** Steps that keep the automaton in line with the ban list *)
Definition pl (name : string) (s : acts) : Prop := exists a, dget name (as_actions s) = Some a /\ plain a.

Definition good (name : string) (s s' : acts) : Prop :=
  wf_bm (as_bm s) -> NoDup (action_names s) ->
  wf_bm (as_bm s') /\ sg (as_actions s') = sg (as_actions s)
  /\ exists tr, as_trace s' = as_trace s ++ tr
     /\ (pl name s -> forall id, fwf name id tr (fwst (dmem id (bm_list (as_bm s)))) = fwst (dmem id (bm_list (as_bm s'))))
     /\ (dget name (as_actions s) = None -> forall id st, fwf name id tr st = st).

Lemma plain_same a b : same_action a b -> plain a -> plain b.
Proof.
  unfold same_action, plain, with_acepoch. intros H. injection H as ? ? ? ? ? ? ?. intros [A B].
  split; [congruence|]. destruct B; [left|right]; congruence.
Qed.

Lemma pl_sg name s s' : sg (as_actions s') = sg (as_actions s) -> pl name s -> pl name s'.
Proof.
  intros H (a & G & P). symmetry in H. destruct (sg_dget _ _ _ _ H G) as (a' & G' & SA). exists a'. split; [exact G'|].
  eapply plain_same; eauto.
Qed.

Lemma none_sg name s s' : sg (as_actions s') = sg (as_actions s) -> dget name (as_actions s) = None ->
  dget name (as_actions s') = None.
Proof.
  intros H G. destruct (dget name (as_actions s')) eqn:E; [|reflexivity].
  destruct (sg_dget _ _ _ _ H E) as (a' & G' & _). congruence.
Qed.

Lemma good_refl name s : good name s s.
Proof. intros W _. repeat (split; [auto|]). exists []. rewrite app_nil_r. auto. Qed.

Lemma good_trans name a b c : good name a b -> good name b c -> good name a c.
Proof.
  intros H1 H2 W N. destruct (H1 W N) as (W1 & S1 & t1 & T1 & P1 & Q1).
  assert (N1 : NoDup (action_names b)).
  { unfold action_names. rewrite (sg_keys _ _ S1). exact N. }
  destruct (H2 W1 N1) as (W2 & S2 & t2 & T2 & P2 & Q2).
  split; [exact W2|]. split; [congruence|]. exists (t1 ++ t2). split; [rewrite T2, T1, app_assoc; reflexivity|].
  split.
  - intros P id. rewrite fwf_app, (P1 P id). apply P2. eapply pl_sg; eauto.
  - intros P id st. rewrite fwf_app, (Q1 P). apply Q2. eapply none_sg; eauto.
Qed.

Lemma quiet_good name s s' : quiet s s' -> good name s s'.
Proof.
  intros H W N. destruct (H W) as (W1 & K & S & Qu & Db & _ & _ & _ & tr & T & I).
  split; [exact W1|]. split; [exact S|]. exists tr. split; [exact T|]. split.
  - intros _ id. rewrite fwf_inert by exact I. now rewrite (dmem_ban_list _ _ id K).
  - intros _ id st. now apply fwf_inert.
Qed.

Lemma NoDup_map_filter (f : string * action -> bool) l : NoDup (dkeys l) -> NoDup (map fst (filter f l)).
Proof.
  intros H. apply (dwf_filter f l) in H. exact H.
Qed.

Lemma good_check_ban_one name tk now ra s s' r : check_ban_one orc tk now ra s = (s', r) -> good name s s'.
Proof.
  intros E. destruct (check_ban_one_cases _ _ _ _ _ _ E) as [[He Hn]|Q]; [|now apply quiet_good].
  destruct (fresh_ban orc s tk now ra He Hn) as (s1 & E1 & NC & BI & (t & Gt & Bt & Idt & _ & _) & Oth & _ & _ & _ & SG & BT & _).
  rewrite E1 in E. injection E as <- _. intros W N.
  assert (Hnew : ~ In (t_id tk) (dkeys (bm_list (as_bm s)))) by exact Hn.
  assert (W1 : wf_bm (as_bm s1)).
  { destruct W as [Hd Hk]. split.
    - unfold dwf. change (dkeys (bm_list (as_bm s1))) with (banned_ids s1). rewrite BI. apply NoDup_snoc; auto.
    - intros k t0 G. destruct (eqb_spec k (t_id tk)) as [->|NE]; [congruence|]. rewrite Oth in G by exact NE. now apply Hk. }
  assert (DM : forall id, dmem id (bm_list (as_bm s1)) = dmem id (bm_list (as_bm s)) || eqb (t_id tk) id).
  { intros id. destruct (eqb_spec (t_id tk) id) as [<-|NE].
    - rewrite orb_true_r, dmem_dget, Gt. reflexivity.
    - rewrite orb_false_r, !dmem_dget, Oth by congruence. reflexivity. }
  assert (DMt : dmem (t_id tk) (bm_list (as_bm s)) = false).
  { destruct (dmem (t_id tk) _) eqn:X; [|reflexivity]. exfalso. apply Hn. now apply ban_list_In. }
  split; [exact W1|]. split; [exact SG|]. destruct NC as (tr & T & M). exists tr. split; [exact T|].
  set (obs := if t_restored tk then [] else [CObserver (t_id tk)]) in *.
  set (names := map fst (filter _ (as_actions s))) in *.
  assert (X : exists t1 t2, tr = t1 ++ t2 /\ map fst t1 = obs /\ map fst t2 = map (fun n => CBan n (t_id tk)) names).
  { exists (firstn (length obs) tr), (skipn (length obs) tr). rewrite firstn_skipn. split; [reflexivity|].
    rewrite <- firstn_map, <- skipn_map, M. rewrite firstn_app, skipn_app, firstn_all, skipn_all, Nat.sub_diag. cbn.
    now rewrite app_nil_r. }
  destruct X as (t1 & t2 & -> & E1' & E2').
  assert (Iobs : forallb inert (map fst t1) = true) by (rewrite E1'; unfold obs; now destruct (t_restored tk)).
  assert (Hnn : NoDup names) by (apply NoDup_map_filter; exact N).
  split.
  - intros (a & Ga & Pa) id. rewrite fwf_app, (fwf_inert _ _ t1) by exact Iobs.
    rewrite (fwf_bans name id (t_id tk) names Hnn t2 _ E2'), DM.
    assert (In1 : inb name names = true).
    { apply inb_In. unfold names. apply in_map_iff. exists (name, a). split; [reflexivity|]. apply filter_In.
      split; [now apply dget_In|]. cbn. destruct Pa as [Pa _]. rewrite Pa. now rewrite andb_false_r. }
    rewrite In1. cbn [andb]. destruct (eqb_spec (t_id tk) id) as [<-|NE].
    + rewrite DMt. reflexivity.
    + now rewrite orb_false_r.
  - intros Gn id st. rewrite fwf_app, (fwf_inert _ _ t1) by exact Iobs.
    rewrite (fwf_bans name id (t_id tk) names Hnn t2 _ E2').
    assert (In1 : inb name names = false).
    { apply inb_false. unfold names. intros I. apply in_map_iff in I as ([k a] & Ek & I). cbn in Ek. subst k.
      apply filter_In in I as [I _]. apply In_dget in I; [congruence|exact N]. }
    now rewrite In1.
Qed.

Lemma good_with_queue name q s : good name s (with_queue q s).
Proof. intros W _. repeat (split; [auto|]). exists []. rewrite app_nil_r. auto. Qed.

Lemma good_check_ban_list name now tks : forall ra cnt s s' r, check_ban_list orc tks now ra cnt s = (s', r) -> good name s s'.
Proof.
  induction tks as [|tk tks IH]; cbn; intros ra cnt s s' r E.
  - injection E as <- _. apply good_refl.
  - destruct (check_ban_one orc tk now ra s) as [s1 [[c ra1]|]] eqn:E1; apply (good_check_ban_one name) in E1.
    + eapply good_trans; eauto.
    + injection E as <- _. exact E1.
Qed.

Lemma good_check_ban_queue name now n : forall ra cnt s s' r, check_ban_queue orc n now ra cnt s = (s', r) -> good name s s'.
Proof.
  induction n as [|n IH]; cbn; intros ra cnt s s' r E.
  - injection E as <- _. apply good_refl.
  - destruct (as_queue s) as [|tk q]; [injection E as <- _; apply good_refl|].
    destruct (check_ban_one orc tk now ra (with_queue q s)) as [s1 [[c ra1]|]] eqn:E1; apply (good_check_ban_one name) in E1.
    + eapply good_trans; [apply good_with_queue|]. eapply good_trans; eauto.
    + injection E as <- _. eapply good_trans; [apply good_with_queue | exact E1].
Qed.

(** Unbanning tickets that have just left the list. *)
Lemma good_unban_each name (bm : banmgr) l s :
  (wf_bm (as_bm s) -> wf_bm bm /\ NoDup (map t_id l)
     /\ (forall id, In id (map t_id l) -> dmem id (bm_list (as_bm s)) = true)
     /\ (forall id, dmem id (bm_list bm) = dmem id (bm_list (as_bm s)) && negb (inb id (map t_id l)))) ->
  good name s (unban_each orc (dkeys (as_actions s)) l (with_bm bm s)).
Proof.
  intros H W N. destruct (H W) as (W1 & ND & IN & DM).
  destruct (unban_each_calls orc (dkeys (as_actions s)) l (with_bm bm s)) as (F & tr & T & M). cbn zeta in *.
  destruct F as (F1&F2&F3&F4&F5&F6). rewrite F1. split; [exact W1|]. split; [exact F6|].
  exists tr. split; [exact T|]. rewrite flat_map_ids in M. split.
  - intros (a & Ga & _) id. rewrite (fwf_unbans_each name id (dkeys (as_actions s)) N (map t_id l) tr _ ND M).
    + assert (In1 : inb name (dkeys (as_actions s)) = true) by (apply inb_In; eapply dget_key; eauto).
      change (bm_list (as_bm (with_bm bm s))) with (bm_list bm). rewrite In1, DM. cbn [andb].
      destruct (inb id (map t_id l)) eqn:Ii; cbn.
      * now rewrite andb_false_r.
      * now rewrite andb_true_r.
    + intros _ Ii. apply inb_In in Ii. now rewrite (IN _ Ii).
  - intros Gn id st.
    assert (In1 : inb name (dkeys (as_actions s)) = false).
    { apply inb_false. intros I. apply dmem_In in I. rewrite dmem_dget, Gn in I. discriminate. }
    rewrite (fwf_unbans_each name id (dkeys (as_actions s)) N (map t_id l) tr _ ND M); rewrite In1; [reflexivity|discriminate].
Qed.

Lemma NoDup_firstn {A} n (l : list A) : NoDup l -> NoDup (firstn n l).
Proof.
  intros H. revert n. induction H as [|x l Hx _ IH]; intros [|n]; cbn; try constructor; [|apply IH].
  intros I. apply Hx. clear -I. revert l I. induction n as [|n IH]; intros [|y l]; cbn; try tauto.
  intros [->|I]; auto.
Qed.

Lemma unban_list_leaves bm time n bm' l : wf_bm bm -> unban_list bm time n = (bm', l) ->
  wf_bm bm' /\ NoDup (map t_id l)
  /\ (forall id, In id (map t_id l) -> dmem id (bm_list bm) = true)
  /\ (forall id, dmem id (bm_list bm') = dmem id (bm_list bm) && negb (inb id (map t_id l))).
Proof.
  intros W E. pose proof W as [Hd Hk].
  assert (W1 : wf_bm bm').
  { pose proof (wf_bm_step bm (BUnban time n) W) as X. cbn in X. rewrite E in X. exact X. }
  assert (E2 : bm_step bm (BUnban time n) = (bm', RList l)) by (cbn; now rewrite E).
  split; [exact W1|].
  destruct (unban_list_cases bm time n bm' l Hd E) as [(->&->&_)|(_&->&HL&_&_)].
  - cbn. repeat split; [constructor|tauto|]. intros id. now rewrite andb_true_r.
  - set (c := firstn (Nat.max 1 n) (filter (expired (bm_time bm) time) (bm_list bm))) in *.
    assert (Hin : forall kv, In kv c -> In kv (bm_list bm)).
    { intros kv I. apply firstn_In in I. now apply filter_In in I. }
    assert (Hc : map t_id (map snd c) = map fst c).
    { rewrite map_map. apply map_ext_in. intros [k t] I. cbn. apply Hk. apply In_dget; auto. }
    rewrite Hc. split; [|split].
    + assert (X : dwf (filter (expired (bm_time bm) time) (bm_list bm))) by now apply dwf_filter.
      unfold dwf, dkeys in X. unfold c. rewrite <- firstn_map.
      now apply NoDup_firstn.
    + intros id I. apply in_map_iff in I as ([k t] & Ek & I). cbn in Ek. subst k. apply Hin in I.
      rewrite dmem_dget. erewrite In_dget; eauto.
    + intros id. destruct (banned_step bm _ bm' _ id W E2) as [X _]. rewrite X. cbn [banned1].
      assert (Y : existsb (fun t => eqb (t_id t) id) (map snd c) = inb id (map fst c)).
      { rewrite <- Hc. unfold inb. rewrite <- (map_id (map t_id (map snd c))) at 1. clear.
        induction (map snd c) as [|t r IH]; cbn; [reflexivity|]. now rewrite IH, eqb_sym. }
      rewrite Y. destruct (inb id (map fst c)); cbn; [now rewrite andb_false_r | now rewrite andb_true_r].
Qed.

Lemma good_check_unban name now n s : good name s (fst (check_unban orc now n s)).
Proof.
  unfold check_unban. destruct (unban_list (as_bm s) now n) as [bm l] eqn:E. cbn [fst].
  apply good_unban_each. intros W. eapply unban_list_leaves; eauto.
Qed.

Lemma good_main_round name ready now cnt s : good name s (fst (main_round orc ready now cnt s)).
Proof.
  unfold main_round. destruct ready.
  - unfold check_ban. destruct (check_ban_queue _ _ _ _ _ _) as [s1 [b|]] eqn:E; apply (good_check_ban_queue name) in E; [|exact E].
    destruct (_ || _); cbn [fst]; [|exact E]. eapply good_trans; [exact E | apply good_check_unban].
  - cbn. apply good_check_unban.
Qed.

Lemma quiet_db (b : bool) c s : inert c = true -> quiet s (if b then fst (emit orc c s) else s).
Proof.
  intros I. destruct b; [|apply quiet_refl]. destruct (emit orc c s) eqn:E. cbn. eapply quiet_emit; eauto.
Qed.

Lemma good_remove_one name id db ife s : good name s (fst (remove_one orc id db ife s)).
Proof.
  unfold remove_one. set (s1 := if db && as_db s then _ else s).
  assert (Q : quiet s s1) by (apply quiet_db; reflexivity). clearbody s1.
  eapply good_trans; [apply quiet_good; exact Q|].
  unfold pop_ticket. destruct (dget id (bm_list (as_bm s1))) as [t|] eqn:G; cbn [fst]; [|apply good_refl].
  apply (good_unban_each name (bm_with_list (ddel id (bm_list (as_bm s1))) (as_bm s1)) [t] s1).
  intros W. pose proof W as [Hd Hk]. assert (Hi : t_id t = id) by now apply Hk. cbn [map]. rewrite Hi.
  split; [|split; [|split]].
  - pose proof (wf_bm_step (as_bm s1) (BPop id) W) as X. cbn in X. unfold pop_ticket in X. rewrite G in X. exact X.
  - constructor; [tauto|constructor].
  - intros i [<-|[]]. now rewrite dmem_dget, G.
  - intros i. cbn [bm_list bm_with_list]. rewrite !dmem_dget, dget_ddel by exact Hd. cbn.
    rewrite orb_false_r. destruct (eqb i id); cbn; [now rewrite andb_false_r | now rewrite andb_true_r].
Qed.

Lemma good_remove_list name one ife : (forall i s, good name s (fst (one i s))) ->
  forall ids missed cnt s, good name s (fst (remove_list one ife ids missed cnt s)).
Proof.
  intros H. induction ids as [|i ids IH]; intros missed cnt s; cbn; [apply good_refl|].
  specialize (H i s). destruct (one i s) as [s1 []]; cbn in H; try (eapply good_trans; [exact H | apply IH]). exact H.
Qed.

Lemma good_remove_single name sub db ife id s : good name s (fst (remove_single orc sub db ife id s)).
Proof.
  unfold remove_single. set (s1 := if db && as_db s then _ else s).
  assert (Q : quiet s s1) by (apply quiet_db; reflexivity).
  destruct (dget id (bm_list (as_bm s1))); [apply good_remove_one|].
  destruct (sub id) as [f|]; [|apply good_remove_one].
  destruct (filter f (ban_list (as_bm s1))) as [|i ips]; cbn [fst]; [now apply quiet_good|].
  eapply good_trans; [apply quiet_good; exact Q|]. apply good_remove_list. intros. apply good_remove_one.
Qed.

Lemma in_bulk_plain tr name a : plain a -> in_bulk tr name a = true ->
  existsb (fun ev => match fst ev with CFlush m => eqb m name && (negb (r_raise (snd ev)) && r_true (snd ev)) | _ => false end) tr = true.
Proof.
  intros [_ P] H. unfold in_bulk in H. apply andb_true_iff in H as [H1 H2]. destruct P as [P|P]; [congruence|].
  rewrite P in H2. revert H2. induction tr as [|[c r] tr IH]; cbn; [discriminate|].
  rewrite !orb_true_iff. intros [X|X]; [left|right; auto]. destruct c; try discriminate.
  destruct (eqb name0 name); [|discriminate]. cbn in *. destruct (r_raise r); [discriminate|exact X].
Qed.

(** flush and check events on the automaton *)
Lemma fwf_about name id l tr st : Forall (about l) tr -> st <> Broken ->
  fwf name id tr st = if existsb (fun ev => match fst ev with CFlush m => eqb m name && (negb (r_raise (snd ev)) && r_true (snd ev)) | _ => false end) tr
                      then Closed else st.
Proof.
  intros H. revert st. induction H as [|[c r] tr (m & I & E) _ IH]; intros st Hst; [reflexivity|].
  change (fwf name id ((c, r) :: tr) st) with (fwf name id tr (fw1 name id st (c, r))). cbn in E.
  destruct E as [->| ->]; cbn [existsb fst snd].
  - assert (X : fw1 name id st (CFlush m, r) = if eqb m name && (negb (r_raise r) && r_true r) then Closed else st).
    { unfold fw1. rewrite andb_assoc. destruct st; try contradiction; reflexivity. }
    rewrite X. destruct (eqb m name && (negb (r_raise r) && r_true r)); cbn [orb].
    + rewrite IH by discriminate. now destruct (existsb _ tr).
    + now apply IH.
  - rewrite fw1_inert by reflexivity. now apply IH.
Qed.

Lemma good_flush name db s s' k : flush_ban orc db None s = (s', Some k) -> good name s s'.
Proof.
  intros E W N. destruct (flush_ban_all orc db s s' k N W E) as (_ & BL & SG & _ & W1 & ftr & rest & T & FL & AB & M).
  split; [exact W1|]. split; [exact SG|]. exists (ftr ++ rest). split; [exact T|].
  set (names := map fst (filter (fun kv => negb (in_bulk ftr (fst kv) (snd kv))) (as_actions s))) in *.
  set (dbc := if db && as_db s then [CDbDel None] else []) in *.
  assert (X : exists t1 t2, rest = t1 ++ t2 /\ map fst t1 = dbc
               /\ map fst t2 = flat_map (fun i => map (fun n => CUnban n i) names) (banned_ids s)).
  { exists (firstn (length dbc) rest), (skipn (length dbc) rest). rewrite firstn_skipn. split; [reflexivity|].
    rewrite <- firstn_map, <- skipn_map, M.
    rewrite firstn_app, skipn_app, firstn_all, skipn_all, Nat.sub_diag. cbn. now rewrite app_nil_r. }
  destruct X as (t1 & t2 & -> & M1 & M2).
  assert (I1 : forallb inert (map fst t1) = true) by (rewrite M1; unfold dbc; now destruct (db && as_db s)).
  assert (Hnn : NoDup names) by (apply NoDup_map_filter; exact N).
  rewrite BL. cbn [dmem dget].
  split.
  - intros (a & Ga & Pa) id. rewrite !fwf_app, (fwf_inert _ _ t1) by exact I1.
    rewrite (fwf_about name id (action_names s) ftr); [|exact AB|now destruct (dmem id _)].
    set (fl := existsb _ ftr) in *.
    assert (Hin : inb name names = negb (in_bulk ftr name a)).
    { destruct (in_bulk ftr name a) eqn:B; cbn.
      - apply inb_false. unfold names. intros I. apply in_map_iff in I as ([k0 a0] & Ek & I). cbn in Ek. subst k0.
        apply filter_In in I as [I Y]. apply In_dget in I; [|exact N]. rewrite Ga in I. injection I as <-. cbn in Y.
        rewrite B in Y. discriminate.
      - apply inb_In. unfold names. apply in_map_iff. exists (name, a). split; [reflexivity|]. apply filter_In.
        split; [now apply dget_In|]. cbn. now rewrite B. }
    assert (Hfl : fl = in_bulk ftr name a).
    { destruct (in_bulk ftr name a) eqn:B; [now apply (in_bulk_plain ftr name a)|].
      destruct fl eqn:Ef; [|reflexivity]. exfalso. unfold fl in Ef.
      apply existsb_exists in Ef as ([c r] & I & Y). cbn in Y. destruct c; try discriminate.
      apply andb_true_iff in Y as [Y1 Y2]. apply eqb_true in Y1. subst name0.
      unfold in_bulk in B. apply andb_false_iff in B as [B|B].
      - (* asked to flush although it has none: impossible *)
        assert (I' : In (CFlush name) (filter is_flush (map fst ftr))).
        { apply filter_In. split; [|reflexivity]. apply in_map_iff. exists (CFlush name, r). auto. }
        rewrite FL in I'. apply in_map_iff in I' as (m & Em & I'). injection Em as ->.
        apply in_map_iff in I' as ([k0 a0] & Ek & I'). cbn in Ek. subst k0. apply filter_In in I' as [I' Y].
        apply In_dget in I'; [|exact N]. rewrite Ga in I'. injection I' as <-. cbn in Y. congruence.
      - assert (B' : forall x, In x ftr -> match fst x with CFlush m => eqb m name && (if r_raise (snd x) then ac_check a else r_true (snd x)) | _ => false end = false).
        { intros x Ix. destruct (match fst x with CFlush m => _ | _ => _ end) eqn:Z; [|reflexivity].
          assert (existsb (fun ev => match fst ev with CFlush m => eqb m name && (if r_raise (snd ev) then ac_check a else r_true (snd ev)) | _ => false end) ftr = true) by (apply existsb_exists; eauto). congruence. }
        specialize (B' _ I). cbn in B'. rewrite eqb_refl in B'. cbn in B'. apply andb_true_iff in Y2 as [Y2 Y3].
        destruct (r_raise r); [discriminate|]. congruence. }
    rewrite Hfl. destruct (in_bulk ftr name a) eqn:B; cbn in Hin.
    + rewrite (fwf_unbans_each name id names Hnn (banned_ids s) t2 Closed (proj1 W) M2).
      * now rewrite Hin.
      * rewrite Hin. discriminate.
    + rewrite (fwf_unbans_each name id names Hnn (banned_ids s) t2 _ (proj1 W) M2).
      * rewrite Hin. cbn [andb]. destruct (dmem id (bm_list (as_bm s))) eqn:D.
        -- apply ban_list_In in D. fold (banned_ids s) in D. apply inb_In in D. now rewrite D.
        -- now destruct (inb id (banned_ids s)).
      * intros _ Ii. apply inb_In in Ii. apply ban_list_In in Ii. now rewrite Ii.
  - intros Gn id st. rewrite !fwf_app, (fwf_inert _ _ t1) by exact I1.
    assert (In1 : inb name names = false).
    { apply inb_false. unfold names. intros I. apply in_map_iff in I as ([k0 a] & Ek & I). cbn in Ek. subst k0.
      apply filter_In in I as [I _]. apply In_dget in I; [congruence|exact N]. }
    rewrite (fwf_unbans_each name id names Hnn (banned_ids s) t2 _ (proj1 W) M2); rewrite In1; [|discriminate].
    cbn [andb].
    assert (Hni : ~ In name (action_names s)).
    { intros I. apply dmem_In in I. rewrite dmem_dget, Gn in I. discriminate. }
    clear -AB Hni. revert st. induction AB as [|[c r] tr (m & I & E) _ IH]; intros st; [reflexivity|].
    change (fwf name id ((c, r) :: tr) st) with (fwf name id tr (fw1 name id st (c, r))). rewrite IH. cbn in E.
    destruct E as [->| ->]; [|now apply fw1_inert].
    destruct (eqb_spec m name) as [->|NE]; [contradiction|].
    destruct st; cbn; destruct (eqb_spec m name); try contradiction; reflexivity.
Qed.

Lemma flush_ban_quiet db only s : quiet_checks orc -> snd (flush_ban orc db only s) <> None.
Proof.
  intros Q. unfold flush_ban.
  match goal with |- context [let '(_, _) := ?x in _] => destruct x as [s1 lst] end.
  match goal with |- context [flush_loop orc ?l s1] => pose proof (flush_loop_quiet orc l Q s1) as X; destruct (flush_loop orc l s1) as [s2 [nm|]] end;
    cbn in *; congruence.
Qed.

Lemma good_bm name bm s : (wf_bm (as_bm s) -> wf_bm bm /\ ban_list bm = ban_list (as_bm s)) -> good name s (with_bm bm s).
Proof.
  intros H W N. destruct (H W) as [W1 K]. split; [exact W1|]. split; [reflexivity|]. exists []. split; [now rewrite app_nil_r|].
  split; [|reflexivity]. intros _ id. cbn [as_bm with_bm]. now rewrite (dmem_ban_list _ _ id K).
Qed.

Lemma good_step name sub s o : quiet_checks orc -> o <> OStop -> good name s (as_step orc sub s o).
Proof.
  intros Q N. destruct o; cbn [as_step].
  - apply good_with_queue.
  - apply good_main_round.
  - unfold add_banned_ip. destruct (check_ban_list _ _ _ _ _ _) as [s1 r] eqn:E. cbn [fst]. eapply good_check_ban_list; eauto.
  - unfold remove_banned. apply good_remove_list. intros. apply good_remove_single.
  - pose proof (flush_ban_quiet db None s Q) as F. destruct (flush_ban orc db None s) as [s1 [k|]] eqn:E; [|cbn in F; congruence].
    cbn [fst]. eapply good_flush; eauto.
  - unfold prolong_ban. destruct (dmem _ _); [|apply good_refl]. apply quiet_good, quiet_call_all. reflexivity.
  - apply good_bm. intros W. split; [apply wf_bm_step; exact W|]. cbn.
    destruct (dget id (bm_list (as_bm s))) eqn:G; cbn; [|reflexivity].
    unfold ban_list. cbn. apply dkeys_dset_mem. eapply dget_key; eauto.
  - apply good_bm. intros W. split; [apply (wf_bm_step (as_bm s) (BSetTime v)); exact W|]. reflexivity.
  - congruence.
Qed.

Lemma sg_filter_key (g : string -> bool) l l' : sg l = sg l' ->
  sg (filter (fun kv => g (fst kv)) l) = sg (filter (fun kv => g (fst kv)) l').
Proof.
  revert l'. induction l as [|[k b] l IH]; intros [|[k' b'] l'] H; try discriminate; [reflexivity|].
  apply sg_cons in H as (-> & Hb & H). cbn [filter fst]. destruct (g k'); [|now apply IH].
  cbn [sg map fst snd]. rewrite Hb. f_equal. now apply IH.
Qed.

(** stopActions *)
Lemma stop_loop_spec names : forall s, NoDup (action_names s) -> let s' := stop_loop orc names s in
  as_bm s' = as_bm s /\ as_queue s' = as_queue s /\ as_db s' = as_db s /\ as_reload s' = as_reload s
  /\ new_calls s s' (map CStop names)
  /\ sg (as_actions s') = sg (filter (fun kv => negb (inb (fst kv) names)) (as_actions s))
  /\ NoDup (action_names s').
Proof.
  induction names as [|n names IH]; intros s N; cbn zeta; cbn [stop_loop map].
  - repeat (split; [reflexivity|]). split; [now apply new_calls_refl|]. split; [|exact N].
    f_equal. clear. induction (as_actions s) as [|kv l IH]; [reflexivity|]. cbn in *. now rewrite <- IH.
  - destruct (act_call orc n (CStop n) s) as [s1 r] eqn:E. cbn [fst].
    apply act_call_spec in E as (F & T & _ & _). destruct F as (F1&F2&F3&F4&F5&F6).
    assert (N1 : NoDup (dkeys (as_actions s1))) by (rewrite (sg_keys _ _ F6); exact N).
    assert (N2 : NoDup (action_names (with_actions (ddel n (as_actions s1)) s1))).
    { unfold action_names. cbn. now apply dwf_ddel. }
    destruct (IH _ N2) as (A1&A2&A3&A4&A5&A6&A7). cbn zeta in *. cbn in A1, A2, A3, A4.
    split; [congruence|]. split; [congruence|]. split; [congruence|]. split; [congruence|].
    split; [|split; [|exact A7]].
    + apply (new_calls_trans s s1 _ [CStop n]); [exists [(CStop n, r)]; auto|].
      destruct A5 as (tr & T2 & M2). exists tr. auto.
    + rewrite A6. cbn [as_actions with_actions].
      rewrite ddel_filter, filter_filter_and by exact N1.
      transitivity (sg (filter (fun kv => negb (inb (fst kv) (n :: names))) (as_actions s1))).
      * f_equal. apply filter_ext. intros [k a]. cbn [fst].
        change (inb k (n :: names)) with (eqb k n || inb k names). now rewrite negb_orb, (eqb_sym n k).
      * now apply (sg_filter_key (fun k => negb (inb k (n :: names)))).
Qed.

Lemma inb_all (l : list (string * action)) : filter (fun kv => negb (inb (fst kv) (rev (dkeys l)))) l = [].
Proof.
  assert (G : forall m : list (string * action), (forall kv, In kv m -> inb (fst kv) (rev (dkeys l)) = true) ->
               filter (fun kv => negb (inb (fst kv) (rev (dkeys l)))) m = []).
  { induction m as [|kv m IH]; intros H; cbn; [reflexivity|]. rewrite (H kv) by now left. cbn. apply IH.
    intros kv' I. apply H. now right. }
  apply G. intros [k a] I. apply inb_In. rewrite <- in_rev. apply in_map_iff. exists (k, a). auto.
Qed.

Lemma stop_actions_all s : NoDup (action_names s) -> let s' := stop_actions orc (dkeys (as_actions s)) s in
  as_bm s' = as_bm s /\ as_queue s' = as_queue s /\ as_actions s' = []
  /\ new_calls s s' (map CStop (rev (action_names s))).
Proof.
  intros N. unfold stop_actions. destruct (stop_loop_spec (rev (dkeys (as_actions s))) s N) as (A1&A2&A3&A4&A5&A6&A7).
  cbn zeta in *. repeat (split; [assumption|]). split; [|exact A5]. rewrite inb_all in A6.
  destruct (as_actions (stop_loop orc _ s)); [reflexivity|discriminate].
Qed.

(** *** The invariant of C12 *)
Definition tracks (name : string) (s : acts) : Prop :=
  wf_bm (as_bm s) /\ NoDup (action_names s) /\
  ((pl name s /\ forall id, fw_after name id (as_trace s) = fwst (dmem id (bm_list (as_bm s))))
   \/ (dget name (as_actions s) = None /\ forall id, fw_after name id (as_trace s) = Closed)).

Lemma good_tracks name s s' : good name s s' -> tracks name s -> tracks name s'.
Proof.
  intros G (W & N & H). destruct (G W N) as (W1 & S & tr & T & P & Q).
  split; [exact W1|]. split; [unfold action_names; rewrite (sg_keys _ _ S); exact N|].
  assert (FA : forall id, fw_after name id (as_trace s') = fwf name id tr (fw_after name id (as_trace s))).
  { intros id. unfold fw_after. rewrite T, fold_left_app. reflexivity. }
  destruct H as [[Hp Hf]|[Hn Hf]]; [left|right].
  - split; [eapply pl_sg; eauto|]. intros id. rewrite FA, Hf. now apply P.
  - split; [eapply none_sg; eauto|]. intros id. rewrite FA, Hf. now apply Q.
Qed.

Lemma stop_inert names : forallb inert (map CStop names) = true.
Proof. induction names; [reflexivity|assumption]. Qed.

Lemma tracks_stop name s : quiet_checks orc -> tracks name s -> tracks name (fst (thread_end orc s)).
Proof.
  intros Q H. unfold thread_end. pose proof (flush_ban_quiet false None s Q) as F.
  destruct (flush_ban orc false None s) as [s1 [k|]] eqn:E; [|cbn in F; congruence]. cbn [fst].
  pose proof (good_tracks _ _ _ (good_flush name _ _ _ _ E) H) as H1.
  destruct H as (W & N & _). destruct (flush_ban_all orc _ _ _ _ N W E) as (_ & BL & _).
  destruct H1 as (W1 & N1 & H1).
  destruct (stop_actions_all s1 N1) as (A1 & A2 & A3 & tr & T & M). cbn zeta in *.
  set (s2 := stop_actions orc _ s1) in *.
  split; [rewrite A1; exact W1|]. split; [unfold action_names; rewrite A3; constructor|]. right.
  rewrite A3. split; [reflexivity|]. intros id. unfold fw_after. rewrite T, fold_left_app.
  change (fwf name id tr (fw_after name id (as_trace s1)) = Closed). rewrite fwf_inert by (rewrite M; apply stop_inert).
  destruct H1 as [[_ H1]|[_ H1]]; rewrite H1; [|reflexivity]. now rewrite BL.
Qed.

Lemma tracks_step name sub s o : quiet_checks orc -> tracks name s -> tracks name (as_step orc sub s o).
Proof.
  intros Q H. assert (D : o = OStop \/ o <> OStop) by (destruct o; (now left) || (right; discriminate)).
  destruct D as [->|D]; [now apply tracks_stop|]. eapply good_tracks; [|exact H]. now apply good_step.
Qed.

Lemma tracks_run name sub ops : quiet_checks orc -> forall s, tracks name s -> tracks name (as_run orc sub s ops).
Proof.
  intros Q. unfold as_run. induction ops as [|o ops IH]; intros s H; cbn; [exact H|]. apply IH. now apply tracks_step.
Qed.

Lemma fresh_tracks name s a : fresh_acts s -> dget name (as_actions s) = Some a -> plain a -> tracks name s.
Proof.
  intros (N & F & T) G P. split; [now apply wf_bm_fresh|]. split; [exact N|]. left. split; [exists a; auto|].
  intros id. rewrite T. destruct F as [-> _]. reflexivity.
Qed.

(** Well-formedness alone, whatever the checks do. *)
Definition keeps_wf (s s' : acts) : Prop :=
  wf_bm (as_bm s) /\ NoDup (action_names s) -> wf_bm (as_bm s') /\ NoDup (action_names s').

Lemma good_wf name s s' : good name s s' -> keeps_wf s s'.
Proof.
  intros G [W N]. destruct (G W N) as (W1 & S & _). split; [exact W1|].
  unfold action_names. now rewrite (sg_keys _ _ S).
Qed.

Lemma flush_loop_frame l : forall s s' r, flush_loop orc l s = (s', r) -> frame s s'.
Proof.
  induction l as [|[n a] l IH]; intros s s' r E; cbn [flush_loop] in E.
  - injection E as <- _. apply frame_refl.
  - assert (K : forall s1, (match flush_loop orc l s1 with (s2, Some k) => (s2, Some (n :: k)) | (s2, None) => (s2, None) end) = (s', r) -> frame s1 s').
    { intros s1 X. destruct (flush_loop orc l s1) as [s2 [k|]] eqn:E2; injection X as <- _; eapply IH; eauto. }
    destruct (ac_flush a); [|now apply K].
    destruct (act_call orc n (CFlush n) s) as [s1 r1] eqn:E1. apply act_call_spec in E1 as (F1 & _).
    destruct (r_raise r1).
    + destruct (ac_check a).
      * destruct (act_call orc n (CCheck n) s1) as [s2 rc] eqn:E2. apply act_call_spec in E2 as (F2 & _).
        assert (F12 := frame_trans _ _ _ F1 F2).
        destruct (r_raise rc); [injection E as <- _; exact F12|]. eapply frame_trans; [exact F12 | eapply IH; eauto].
      * eapply frame_trans; [exact F1 | now apply K].
    + destruct (r_true r1); eapply frame_trans; [exact F1 | eapply IH; eauto | exact F1 | now apply K].
Qed.

Lemma flush_ban_frame db only s s' r : flush_ban orc db only s = (s', r) ->
  sg (as_actions s') = sg (as_actions s) /\ as_queue s' = as_queue s
  /\ as_bm s' = match only with None => fst (flush_ban_list (as_bm s)) | Some _ => as_bm s end.
Proof.
  unfold flush_ban. set (s1 := match only with None => _ | Some _ => _ end).
  assert (H1 : as_actions (fst s1) = as_actions s /\ as_queue (fst s1) = as_queue s
    /\ as_bm (fst s1) = match only with None => fst (flush_ban_list (as_bm s)) | Some _ => as_bm s end).
  { unfold s1. destruct only; repeat split. }
  destruct s1 as [s1 lst]. cbn [fst] in H1. destruct H1 as (H1 & H2 & H3).
  destruct (flush_loop orc _ s1) as [s2 [nm|]] eqn:E2; apply flush_loop_frame in E2 as (F1&F2&F3&F4&F5&F6).
  - intros E. injection E as <- _.
    set (s3 := if db && as_db s2 then _ else s2).
    assert (F : frame s2 s3).
    { unfold s3. destruct (db && as_db s2); [|apply frame_refl]. repeat split. }
    destruct (unban_each_calls orc nm lst s3) as (F' & _). cbn zeta in F'.
    destruct (frame_trans _ _ _ F F') as (G1&G2&G3&G4&G5&G6).
    split; [congruence|]. split; congruence.
  - intros E. injection E as <- _. split; [congruence|]. split; congruence.
Qed.

Lemma flush_ban_wf db s : keeps_wf s (fst (flush_ban orc db None s)).
Proof.
  intros [W N]. destruct (flush_ban orc db None s) as [s1 r] eqn:E. apply flush_ban_frame in E as (E1 & _ & E3).
  cbn [fst]. rewrite E3. split; [exact (wf_bm_step (as_bm s) BFlush W)|].
  unfold action_names. now rewrite (sg_keys _ _ E1).
Qed.

Lemma wf_step sub s o : keeps_wf s (as_step orc sub s o).
Proof.
  destruct o; cbn [as_step].
  - apply (good_wf ""), good_with_queue.
  - apply (good_wf ""), good_main_round.
  - unfold add_banned_ip. destruct (check_ban_list _ _ _ _ _ _) as [s1 r] eqn:E. cbn [fst]. apply (good_wf "").
    eapply good_check_ban_list; eauto.
  - unfold remove_banned. apply (good_wf ""), good_remove_list. intros. apply good_remove_single.
  - apply flush_ban_wf.
  - unfold prolong_ban. destruct (dmem _ _); [|intros H; exact H]. apply (good_wf ""), quiet_good, quiet_call_all. reflexivity.
  - intros [W N]. split; [|exact N]. cbn [as_bm with_bm]. apply wf_bm_step. exact W.
  - intros [W N]. split; [|exact N]. exact (wf_bm_step (as_bm s) (BSetTime v) W).
  - intros H. unfold thread_end. pose proof (flush_ban_wf false s H) as H1.
    destruct (flush_ban orc false None s) as [s1 [k|]]; [|exact H1]. cbn [fst] in *. destruct H1 as [W1 N1].
    destruct (stop_actions_all s1 N1) as (A1 & A2 & A3 & _). cbn zeta in *. rewrite A1. split; [exact W1|].
    unfold action_names. rewrite A3. constructor.
Qed.

Lemma wf_run sub ops : forall s, keeps_wf s (as_run orc sub s ops).
Proof.
  unfold as_run. induction ops as [|o ops IH]; intros s H; cbn; [exact H|]. apply IH. now apply wf_step.
Qed.

Lemma wf_fresh sub s ops : fresh_acts s ->
  wf_bm (as_bm (as_run orc sub s ops)) /\ NoDup (action_names (as_run orc sub s ops)).
Proof. intros (N & F & T). apply wf_run. split; [now apply wf_bm_fresh | exact N]. Qed.
End O3.
