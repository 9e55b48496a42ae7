(** Proofs for bans across restarts, second part: the database keeps up with the ban list. *)
From Verif Require Import Base Ticket_Model.
From Verif Require Import Database_Model Database_Spec Database_Proofs.
From Verif Require Database_Props.
From Verif Require Import BanManager_Model BanManager_Spec BanManager_Proofs
  Actions_Model Actions_Spec Actions_Proofs Actions_Proofs2 Persist_Model Persist_Spec Persist_Proofs.

(** ** Histories of the database *)
Lemma last_ban_app j ip a : forall b cur, last_ban j ip (a ++ b) cur = last_ban j ip b (last_ban j ip a cur).
Proof. induction a as [|o a IH]; intros b cur; [reflexivity|]. cbn [app]. rewrite last_ban_cons, IH, <- last_ban_cons. reflexivity. Qed.
Lemma enabled_app j a : forall b cur, enabled j (a ++ b) cur = enabled j b (enabled j a cur).
Proof. induction a as [|o a IH]; intros b cur; [reflexivity|]. cbn [app]. rewrite enabled_cons, IH, <- enabled_cons. reflexivity. Qed.
Lemma well_used_app j a : forall b cur, well_used j a cur -> well_used j b (enabled j a cur) -> well_used j (a ++ b) cur.
Proof.
  induction a as [|o a IH]; intros b cur U V; [exact V|]. cbn [app well_used] in *. destruct U as [U1 U2]. split; [exact U1|].
  apply IH; [exact U2|]. now rewrite <- enabled_cons.
Qed.
Lemma db_run_app cfg a b d : db_run cfg (a ++ b) d = db_run cfg b (db_run cfg a d).
Proof. apply fold_left_app. Qed.
Lemma sane_later now now' h : now <= now' -> sane_history now h -> sane_history now' h.
Proof. intros L H. eapply Forall_impl; [|exact H]. intros []; auto. intros. cbn in *. lia. Qed.
Lemma last_ban_id j ip h : forall cur en, (forall x, cur = Some x -> t_id (snd x) = ip) ->
  last_ban j ip h cur = Some en -> t_id (snd en) = ip.
Proof.
  induction h as [|o h IH]; intros cur en C; cbn [last_ban]; [auto|]. destruct o; apply IH; auto.
  - intros x. destruct (eqb_spec j j0); cbn [andb]; [|auto]. destruct (eqb_spec ip (t_id t)); [|auto]. intros [= <-]. auto.
  - intros x. destruct (_ && _); [discriminate|auto].
Qed.

Section Env.
Context (e : penv).
Notation j := (e_jail e).
Notation js := (e_js e).
Notation B := (dflt_of e).
Hypothesis SE : sane_env e.

Let SC : sane_settings (e_cfg e) := proj1 SE.
Let SJ : sane_jail js := proj1 (proj2 SE).
Let PB : proper B := proj1 (proj2 (proj2 SE)).

Notation len t := (length_then e t).
Definition elen (en : Z * ticket) : Z := limited js (get_bantime (fst en) (snd en)).
(** The ban in the ban list and the stored one have the same beginning and, after a restart, end. *)
Definition agree (t : ticket) (en : Z * ticket) : Prop := t_time t = t_time (snd en) /\ len t = elen en.
Definition done (c time bt : Z) : Prop := bt <> -1 /\ time + bt <= c.

Lemma done_later c c' t b : c <= c' -> done c t b -> done c' t b.
Proof. unfold done. lia. Qed.
Lemma done_running now t b : done now t b -> ~ running now t b.
Proof. unfold done, running. lia. Qed.

Definition lst (st : pstate) (id : string) : option ticket := dget id (bm_list (as_bm (p_acts st))).
Definition live (st : pstate) (id : string) : Prop := exists b, In (PLive id b) (p_pend st).
Definition live_ids (l : list pend) : list string := flat_map (fun p => match p with PLive id _ => [id] | _ => [] end) l.
Definition pend_ok (c : Z) (st : pstate) (p : pend) : Prop :=
  match p with
  | PLive id b => exists t, lst st id = Some t /\ t_restored t = false /\ b = get_bantime B t
  | PDead t b => b = get_bantime B t /\ b <> -1 /\ t_time t + b < c /\ t_restored t = false
  end.

Record inv (c : Z) (st : pstate) (h : list db_op) : Prop := {
  i_db   : p_db st = db_run (e_cfg e) h db_init;
  i_sane : sane_history c h;
  i_used : well_used j h false;
  i_en   : enabled j h false = true;
  i_wf   : wf_bm (as_bm (p_acts st));
  i_nd   : NoDup (action_names (p_acts st));
  i_time : bm_time (as_bm (p_acts st)) = B;
  i_has  : as_db (p_acts st) = true;
  i_q    : exists rs ns, as_queue (p_acts st) = rs ++ ns
             /\ NoDup (map t_id rs) /\ Forall (fun t => t_restored t = true) rs
             /\ Forall (fun t => t_restored t = false /\ proper (get_bantime B t)) ns
             /\ Forall (fun t => lst st (t_id t) = None /\ proper (get_bantime B t)
                          /\ exists en, last_ban j (t_id t) h None = Some en /\ agree t en) rs;
  i_nl   : NoDup (live_ids (p_pend st));
  i_pend : Forall (pend_ok c st) (p_pend st);
  i_list : forall id t, lst st id = Some t -> proper (get_bantime B t) /\
             (live st id \/ (exists en, last_ban j id h None = Some en /\ agree t en) \/ done c (t_time t) (len t));
  i_row  : forall id en, last_ban j id h None = Some en -> id <> ""%string -> e_ign e id = false ->
             (exists t, lst st id = Some t /\ agree t en /\ ~ live st id) \/ (exists t, waits st id t) \/ done c (t_time (snd en)) (elen en)
}.

(** What a step does to the stored bans. *)
Definition kept (st : pstate) (o : p_op) (h h' : list db_op) : Prop :=
  forall id, last_ban j id h' None = last_ban j id h None \/ live st id \/ lifts e st o id.
Lemma kept_refl st o h : kept st o h h.
Proof. intros id. now left. Qed.

(** ** Facts about lengths *)
Lemma len_le t : proper (get_bantime B t) -> get_bantime B t <> -1 -> 0 < len t <= get_bantime B t.
Proof. intros P N. pose proof (limited_pos js _ P). unfold length_then in *. fold B in *. lia. Qed.
Lemma over_done c t : proper (get_bantime B t) -> get_bantime B t <> -1 -> t_time t + get_bantime B t <= c -> done c (t_time t) (len t).
Proof. intros P N L. pose proof (len_le t P N). unfold done. lia. Qed.
Lemma limited_idem bt : proper bt -> limited js (limited js bt) = limited js bt.
Proof.
  intros P. unfold limited. destruct (the_limit js) as [m|] eqn:E; [|reflexivity].
  assert (0 < m).
  { unfold the_limit in E. destruct (js_increment js).
    - destruct (js_maxtime js) as [x|]; [|discriminate]. destruct (Z.ltb_spec 0 x); [|discriminate]. injection E as <-. lia.
    - destruct (Z.ltb_spec 0 (js_bantime js)); [|discriminate]. injection E as <-. lia. }
  unfold proper in P. destruct (Z.eqb_spec bt (-1)); [destruct (Z.eqb_spec m (-1)); lia | destruct (Z.eqb_spec (Z.min bt m) (-1)); lia].
Qed.
Lemma sim_len t t' : sim t t' -> get_bantime B t' = get_bantime B t /\ len t' = len t /\ t_time t' = t_time t.
Proof. intros (A&X&Y&Z0). unfold length_then, get_bantime. rewrite Y. auto. Qed.
Lemma sim_agree t t' en : sim t t' -> agree t en -> agree t' en.
Proof. intros S0 [A1 A2]. apply sim_len in S0 as (E1&E2&E3). split; congruence. Qed.

Lemma live_In st id : live st id <-> In id (live_ids (p_pend st)).
Proof.
  unfold live, live_ids. rewrite in_flat_map. split.
  - intros (b & I). exists (PLive id b). split; [exact I|now left].
  - intros ([id' b|t b] & I & X); cbn in X; [destruct X as [->|[]]; eauto|destruct X].
Qed.

Lemma rel_sane c st h id en : inv c st h -> last_ban j id h None = Some en -> proper (get_bantime (fst en) (snd en)).
Proof.
  intros I0 L. destruct (hist (e_cfg e) j h c SC (i_sane _ _ _ I0) (i_used _ _ _ I0) id) as [_ X]. rewrite L in X. exact X.
Qed.

(** ** The actions only talk to the actions *)
Lemma osim_some a b t : osim a b -> a = Some t -> exists t', b = Some t' /\ sim t t'.
Proof. intros S0 ->. destruct b as [t'|]; [eauto|destruct S0]. Qed.
Lemma osim_some_r a b t : osim a b -> b = Some t -> exists t', a = Some t' /\ sim t' t.
Proof. intros S0 ->. destruct a as [t'|]; [eauto|destruct S0]. Qed.
Lemma osim_none a b : osim a b -> a = None -> b = None.
Proof. intros S0 ->. destruct b; [destruct S0|reflexivity]. Qed.

Lemma inv_sim c c' st st' h : inv c st h -> c <= c' -> p_pend st' = p_pend st -> p_db st' = p_db st ->
  (forall id, osim (lst st id) (lst st' id)) -> wf_bm (as_bm (p_acts st')) -> NoDup (action_names (p_acts st')) ->
  bm_time (as_bm (p_acts st')) = B -> as_db (p_acts st') = true -> as_queue (p_acts st') = as_queue (p_acts st) -> inv c' st' h.
Proof.
  intros I0 LC EP ED OS W ND ET EH EQ. constructor; auto.
  - rewrite ED. apply I0.
  - eapply sane_later; [exact LC|apply I0].
  - apply I0.
  - apply I0.
  - rewrite EQ. destruct (i_q _ _ _ I0) as (rs & ns & Q1 & Q2 & Q3 & Q4 & Q5). exists rs, ns. do 4 (split; [assumption|]).
    eapply Forall_impl; [|exact Q5]. intros t (A1 & A2 & A3). split; [|auto]. eapply osim_none; eauto.
  - rewrite EP. apply I0.
  - rewrite EP. eapply Forall_impl; [|apply I0]. intros [id b|t b]; cbn [pend_ok].
    + intros (t & L & R & Eb). destruct (osim_some _ _ _ (OS id) L) as (t' & L' & S0). exists t'. split; [exact L'|].
      pose proof (sim_len _ _ S0) as (E1 & _ & _). destruct S0 as (_&_&_&S4). split; congruence.
    + intros (A1&A2&A3&A4). repeat split; auto. lia.
  - intros id t L. destruct (osim_some_r _ _ _ (OS id) L) as (t0 & L0 & S0).
    destruct (i_list _ _ _ I0 _ _ L0) as (P & X). pose proof (sim_len _ _ S0) as (E1 & E2 & E3). rewrite E1. split; [exact P|].
    destruct X as [(b & X)|[(en & X & Y)|X]].
    + left. exists b. now rewrite EP.
    + right. left. exists en. split; [exact X|]. eapply sim_agree; eauto.
    + right. right. rewrite E2, E3. eapply done_later; eauto.
  - intros id en L N G. destruct (i_row _ _ _ I0 _ _ L N G) as [(t & Lt & A & NL)|[(t & A)|X]].
    + left. destruct (osim_some _ _ _ (OS id) Lt) as (t' & L' & S0). exists t'. split; [exact L'|]. split; [eapply sim_agree; eauto|].
      unfold live. now rewrite EP.
    + right. left. exists t. unfold waits in *. now rewrite EQ.
    + right. right. eapply done_later; eauto.
Qed.

Lemma new_events_calls s s' cs : new_calls s s' cs -> new_events s s' = cs.
Proof.
  intros (tr & T & M). unfold new_events. rewrite T, skipn_app, skipn_all, Nat.sub_diag. cbn. exact M.
Qed.
Lemma local_observer b evs : forallb local evs = true -> tell_observer b evs = [].
Proof.
  induction evs as [|c evs IH]; cbn; [reflexivity|]. intros H. apply andb_true_iff in H as [H1 H2].
  unfold tell_observer in IH. rewrite (IH H2). destruct c; cbn in *; try discriminate; reflexivity.
Qed.
Lemma local_db evs : forall d, forallb local evs = true -> tell_db e evs d = d.
Proof.
  unfold tell_db. induction evs as [|c evs IH]; cbn; intros d H; [reflexivity|]. apply andb_true_iff in H as [H1 H2].
  destruct c; try discriminate; now apply IH.
Qed.

(** Events of IDs that stay in the ban list stay as they are. *)
Lemma detach_stay c st h new : inv c st h -> (forall id t, lst st id = Some t -> dget id (bm_list (as_bm new)) <> None) ->
  map (detach (p_acts st) new) (p_pend st) = p_pend st.
Proof.
  intros I0 H. rewrite <- (map_id (p_pend st)) at 2. apply map_ext_in. intros p Ip.
  pose proof (i_pend _ _ _ I0) as F. rewrite Forall_forall in F. specialize (F p Ip).
  destruct p as [id b|t b]; cbn [detach]; [|reflexivity]. destruct F as (t & L & _). specialize (H id t L).
  unfold dmem. destruct (dget id (bm_list (as_bm new))); [reflexivity|congruence].
Qed.

Lemma calm_acted c c' st h b new : inv c st h -> c <= c' -> calm (p_acts st) new -> wf_bm (as_bm new) -> NoDup (action_names new) ->
  inv c' (acted e st b new) h.
Proof.
  intros I0 LC (C1&C2&C3&C4&cs&C5&C6) W ND. unfold acted. rewrite (new_events_calls _ _ _ C5), local_db, local_observer, app_nil_r by exact C6.
  rewrite (detach_stay c st h new I0).
  - apply (inv_sim c c' st); auto; cbn [p_acts p_pend p_db].
    + rewrite C2. apply I0.
    + rewrite C4. apply I0.
  - intros id t L X. specialize (C1 id). unfold lst in L. rewrite L, X in C1. exact C1.
Qed.

(** ** Queue *)
Lemma inv_put c st h tk : inv c st h -> t_restored tk = false -> proper (get_bantime B tk) ->
  inv c (mkP (with_queue (as_queue (p_acts st) ++ [tk]) (p_acts st)) (p_pend st) (p_db st)) h.
Proof.
  intros I0 R P. destruct I0. constructor; auto.
  - destruct i_q0 as (rs & ns & Q1 & Q2 & Q3 & Q4 & Q5). exists rs, (ns ++ [tk]). cbn [p_acts with_queue as_queue].
    rewrite Q1, app_assoc. do 3 (split; [auto|]). split; [|exact Q5]. apply Forall_app. split; [exact Q4|]. constructor; auto.
  - intros id en L N G. destruct (i_row0 id en L N G) as [X|[(t & X1 & X2 & X3)|X]]; auto. right. left. exists t.
    split; [|auto]. cbn. apply in_or_app. now left.
Qed.

(** Taking a ticket that is not restored, or whose ban is over. *)
Lemma inv_pop c c' st h tk q : inv c st h -> c <= c' -> as_queue (p_acts st) = tk :: q ->
  (t_restored tk = true -> done c' (t_time tk) (len tk)) ->
  inv c' (mkP (with_queue q (p_acts st)) (p_pend st) (p_db st)) h.
Proof.
  intros I0 LC EQ D.
  assert (I1 : inv c' st h).
  { apply (inv_sim c c' st st h I0 LC); auto; try apply I0. intros; apply osim_refl. }
  clear I0. rename I1 into I0. pose proof I0 as I1. destruct I0. destruct i_q0 as (rs & ns & Q1 & Q2 & Q3 & Q4 & Q5).
  constructor; auto.
  - cbn [p_acts with_queue as_queue]. rewrite EQ in Q1. destruct rs as [|r rs]; cbn [app] in Q1.
    + destruct ns as [|n ns]; [discriminate|]. injection Q1 as -> ->. exists [], ns. cbn. do 3 (split; [constructor|]).
      inversion Q4; auto.
    + injection Q1 as -> ->. exists rs, ns. split; [reflexivity|]. cbn in Q2. inversion Q2; subst. inversion Q3; subst. inversion Q5; subst. auto.
  - intros id en L N G. destruct (i_row0 id en L N G) as [X|[(t & X1 & X2 & X3)|X]]; auto. rewrite EQ in X1. destruct X1 as [<-|X1].
    + right. right. rewrite EQ in Q1. destruct rs as [|r rs]; cbn [app] in Q1.
      * exfalso. destruct ns as [|n ns]; [discriminate|]. injection Q1 as -> ->. inversion Q4; subst. destruct H1. congruence.
      * injection Q1 as -> ->. inversion Q5 as [|? ? (A1 & A2 & en' & A3 & A4) ?]; subst. rewrite L in A3. injection A3 as <-.
        destruct A4 as [A4 A5]. rewrite <- A4, <- A5. now apply D.
    + right. left. exists t. repeat split; auto.
Qed.

(** ** A new ban *)
Lemma inv_ban c c' st h tk new cs : inv c st h -> c <= c' -> t_restored tk = false -> proper (get_bantime B tk) ->
  lst st (t_id tk) = None -> (forall t, ~ waits st (t_id tk) t) ->
  (exists t, dget (t_id tk) (bm_list (as_bm new)) = Some t /\ sim tk t) ->
  (forall id, id <> t_id tk -> osim (lst st id) (dget id (bm_list (as_bm new)))) ->
  bm_time (as_bm new) = B -> as_queue new = as_queue (p_acts st) -> as_db new = true ->
  new_calls (p_acts st) new (CObserver (t_id tk) :: cs) -> forallb local cs = true ->
  wf_bm (as_bm new) -> NoDup (action_names new) ->
  inv c' (acted e st (get_bantime B tk) new) h.
Proof.
  intros I0 LC R P LN NW (t & Lt & St) OS ET EQ EH NC LL W ND. unfold acted. rewrite (new_events_calls _ _ _ NC).
  rewrite (detach_stay c st h new I0); cycle 1.
  { intros id t0 L0 X. destruct (eqb_spec id (t_id tk)) as [->|N]; [congruence|]. specialize (OS id N). rewrite L0, X in OS. exact OS. }
  change (tell_db e (CObserver (t_id tk) :: cs) (p_db st)) with (tell_db e cs (p_db st)).
  rewrite local_db by exact LL.
  replace (tell_observer (get_bantime B tk) (CObserver (t_id tk) :: cs)) with ([PLive (t_id tk) (get_bantime B tk)])
    by (cbn; f_equal; symmetry; now apply local_observer).
  set (st' := mkP new _ _).
  assert (LS : lst st' (t_id tk) = Some t) by exact Lt.
  assert (OS' : forall id, id <> t_id tk -> osim (lst st id) (lst st' id)) by exact OS.
  assert (NL : ~ In (t_id tk) (live_ids (p_pend st))).
  { intros I1. apply live_In in I1 as (b & I1). pose proof (i_pend _ _ _ I0) as F. rewrite Forall_forall in F. destruct (F _ I1) as (t0 & L0 & _). congruence. }
  constructor; auto.
  - apply I0.
  - eapply sane_later; [exact LC|apply I0].
  - apply I0.
  - apply I0.
  - cbn [p_acts st']. rewrite EQ. destruct (i_q _ _ _ I0) as (rs & ns & Q1 & Q2 & Q3 & Q4 & Q5). exists rs, ns. do 4 (split; [assumption|]).
    rewrite Forall_forall in *. intros t0 I1. destruct (Q5 t0 I1) as (A1 & A2 & A3). split; [|auto].
    destruct (eqb_spec (t_id t0) (t_id tk)) as [E|N]; [|eapply osim_none; [apply OS'; exact N|exact A1]].
    exfalso. apply (NW t0). split; [rewrite Q1; apply in_or_app; now left|]. auto.
  - cbn [st' p_pend]. unfold live_ids in *. rewrite flat_map_app. cbn. apply NoDup_app_both; [apply I0| |].
    + constructor; [intros []|constructor].
    + intros x Ix [<-|[]]. contradiction.
  - cbn [st' p_pend]. apply Forall_app. split.
    + eapply Forall_impl; [|apply I0]. intros [id b|t0 b]; cbn [pend_ok].
      * intros (t0 & L0 & R0 & Eb). assert (N : id <> t_id tk) by congruence.
        destruct (osim_some _ _ _ (OS' id N) L0) as (t' & L' & S0). exists t'. split; [exact L'|].
        pose proof (sim_len _ _ S0) as (E1 & _ & _). destruct S0 as (_&_&_&S4). split; congruence.
      * intros (A1&A2&A3&A4). repeat split; auto. lia.
    + constructor; [|constructor]. exists t. split; [exact LS|]. pose proof (sim_len _ _ St) as (E1 & _ & _). destruct St as (_&_&_&S4).
      split; congruence.
  - intros id t0 L0. destruct (eqb_spec id (t_id tk)) as [->|N].
    + rewrite LS in L0. injection L0 as <-. pose proof (sim_len _ _ St) as (E1 & _ & _). rewrite E1. split; [exact P|]. left.
      eexists. cbn. apply in_or_app. right. now left.
    + destruct (osim_some_r _ _ _ (OS' id N) L0) as (t1 & L1 & S0).
      destruct (i_list _ _ _ I0 _ _ L1) as (P1 & X). pose proof (sim_len _ _ S0) as (E1 & E2 & E3). rewrite E1. split; [exact P1|].
      destruct X as [(b & X)|[(en & X & Y)|X]].
      * left. exists b. cbn. apply in_or_app. now left.
      * right. left. exists en. split; [exact X|]. eapply sim_agree; eauto.
      * right. right. rewrite E2, E3. eapply done_later; eauto.
  - intros id en L N G. destruct (i_row _ _ _ I0 _ _ L N G) as [(t0 & L0 & A & NLi)|[(t0 & A)|X]].
    + left. assert (N1 : id <> t_id tk) by congruence. destruct (osim_some _ _ _ (OS' id N1) L0) as (t' & L' & S0).
      exists t'. split; [exact L'|]. split; [eapply sim_agree; eauto|]. intros (b & Ib). cbn in Ib. apply in_app_or in Ib as [Ib|[Ib|[]]].
      * apply NLi. now exists b.
      * congruence.
    + right. left. exists t0. unfold waits in *. cbn [st' p_acts]. now rewrite EQ.
    + right. right. eapply done_later; eauto.
Qed.

(** A restored ban is carried out. *)
Lemma inv_rban c c' st h tk q new cs : inv c st h -> c <= c' -> as_queue (p_acts st) = tk :: q -> t_restored tk = true ->
  (exists t, dget (t_id tk) (bm_list (as_bm new)) = Some t /\ sim tk t) ->
  (forall id, id <> t_id tk -> osim (lst st id) (dget id (bm_list (as_bm new)))) ->
  bm_time (as_bm new) = B -> as_queue new = q -> as_db new = true ->
  new_calls (p_acts st) new cs -> forallb local cs = true ->
  wf_bm (as_bm new) -> NoDup (action_names new) ->
  inv c' (acted e st (get_bantime B tk) new) h.
Proof.
  intros I0 LC EQ0 R (t & Lt & St) OS ET EQ EH NC LL W ND.
  destruct (i_q _ _ _ I0) as (rs0 & ns & Q1 & Q2 & Q3 & Q4 & Q5).
  assert (exists rs, rs0 = tk :: rs /\ q = rs ++ ns) as (rs & -> & Eq).
  { rewrite EQ0 in Q1. destruct rs0 as [|r rs]; cbn [app] in Q1.
    - exfalso. destruct ns as [|n ns]; [discriminate|]. injection Q1 as -> ->. inversion Q4; subst. destruct H1. congruence.
    - injection Q1 as -> ->. eauto. }
  inversion Q5 as [|? ? (LN & P & en & El & Ag) Q5']; subst x l.
  inversion Q3 as [|? ? _ Q3']; subst x l. cbn in Q2. inversion Q2 as [|? ? Nin Q2']; subst x l.
  unfold acted. rewrite (new_events_calls _ _ _ NC), local_db, local_observer, app_nil_r by exact LL.
  rewrite (detach_stay c st h new I0); cycle 1.
  { intros id t0 L0 X. destruct (eqb_spec id (t_id tk)) as [->|N]; [congruence|]. specialize (OS id N). rewrite L0, X in OS. exact OS. }
  set (st' := mkP new _ _).
  assert (LS : lst st' (t_id tk) = Some t) by exact Lt.
  assert (OS' : forall id, id <> t_id tk -> osim (lst st id) (lst st' id)) by exact OS.
  constructor; auto.
  - apply I0.
  - eapply sane_later; [exact LC|apply I0].
  - apply I0.
  - apply I0.
  - cbn [p_acts st']. exists rs, ns. rewrite EQ. do 4 (split; [assumption|]).
    rewrite Forall_forall in *. intros t0 I1. destruct (Q5' t0 I1) as (A1 & A2 & A3). split; [|auto].
    destruct (eqb_spec (t_id t0) (t_id tk)) as [E|N]; [|eapply osim_none; [apply OS'; exact N|exact A1]].
    exfalso. apply Nin. rewrite <- E. now apply in_map.
  - apply I0.
  - cbn [st' p_pend]. eapply Forall_impl; [|apply I0]. intros [id b|t0 b]; cbn [pend_ok].
      * intros (t0 & L0 & R0 & Eb). assert (N : id <> t_id tk) by congruence.
        destruct (osim_some _ _ _ (OS' id N) L0) as (t' & L' & S0). exists t'. split; [exact L'|].
        pose proof (sim_len _ _ S0) as (E1 & _ & _). destruct S0 as (_&_&_&S4). split; congruence.
      * intros (A1&A2&A3&A4). repeat split; auto. lia.
  - intros id t0 L0. destruct (eqb_spec id (t_id tk)) as [->|N].
    + rewrite LS in L0. injection L0 as <-. pose proof (sim_len _ _ St) as (E1 & _ & _). rewrite E1. split; [exact P|]. right. left.
      exists en. split; [exact El|]. eapply sim_agree; eauto.
    + destruct (osim_some_r _ _ _ (OS' id N) L0) as (t1 & L1 & S0).
      destruct (i_list _ _ _ I0 _ _ L1) as (P1 & X). pose proof (sim_len _ _ S0) as (E1 & E2 & E3). rewrite E1. split; [exact P1|].
      destruct X as [(b & X)|[(en1 & X & Y)|X]].
      * left. exists b. exact X.
      * right. left. exists en1. split; [exact X|]. eapply sim_agree; eauto.
      * right. right. rewrite E2, E3. eapply done_later; eauto.
  - intros id en1 L N G. destruct (eqb_spec id (t_id tk)) as [->|N1].
    + left. exists t. split; [exact LS|]. rewrite El in L. injection L as <-. split; [eapply sim_agree; eauto|].
      intros (b & Ib). cbn in Ib. pose proof (i_pend _ _ _ I0) as F. rewrite Forall_forall in F. destruct (F _ Ib) as (t0 & L0 & _). congruence.
    + destruct (i_row _ _ _ I0 _ _ L N G) as [(t0 & L0 & A & NLi)|[(t0 & A1 & A2 & A3)|X]].
      * left. destruct (osim_some _ _ _ (OS' id N1) L0) as (t' & L' & S0).
        exists t'. split; [exact L'|]. split; [eapply sim_agree; eauto|exact NLi].
      * right. left. exists t0. split; [|auto]. cbn [st' p_acts]. rewrite EQ. rewrite EQ0 in A1. destruct A1 as [<-|A1]; [congruence|exact A1].
      * right. right. eapply done_later; eauto.
Qed.

(** ** Bans that leave the list *)
Lemma live_ids_detach c st h new : inv c st h ->
  live_ids (map (detach (p_acts st) new) (p_pend st)) = filter (fun id => dmem id (bm_list (as_bm new))) (live_ids (p_pend st)).
Proof.
  intros I0. pose proof (i_pend _ _ _ I0) as F. induction F as [|p l P _ IH]; [reflexivity|].
  cbn [map live_ids flat_map] in *. destruct p as [id b|t b]; cbn [detach].
  - destruct (dmem id (bm_list (as_bm new))) eqn:E; cbn [app filter].
    + rewrite E. f_equal. exact IH.
    + destruct P as (t & L & _). unfold lst in L. rewrite L. cbn [app]. rewrite E. exact IH.
  - exact IH.
Qed.

Lemma inv_expire c now st h n : inv c st h -> c <= now <= MAX_TIME -> inv now (p_step e st (PExpire now n)) h.
Proof.
  intros I0 (LC & HM). cbn [p_step].
  destruct (expiry_step (e_orc e) now n (p_acts st) (i_wf _ _ _ I0) HM) as (D & ET & EQ & EH & cs & NC & LL).
  assert (WF : keeps_wf (p_acts st) (fst (check_unban (e_orc e) now n (p_acts st)))) by apply (good_wf ""), good_check_unban.
  cbn zeta in *. set (new := fst (check_unban (e_orc e) now n (p_acts st))) in *. clearbody new.
  destruct WF as [W ND]; [split; apply I0|].
  unfold acted. rewrite (new_events_calls _ _ _ NC), local_db, local_observer, app_nil_r by exact LL.
  set (st' := mkP new _ _). rewrite (i_time _ _ _ I0) in D.
  assert (D' : forall id, lst st' id = lst st id \/ (lst st' id = None /\ exists t, lst st id = Some t
      /\ get_bantime B t <> -1 /\ t_time t + get_bantime B t < now)) by exact D.
  clear D. constructor; auto.
  - apply I0.
  - eapply sane_later; [exact LC|apply I0].
  - apply I0.
  - apply I0.
  - cbn [st' p_acts]. rewrite ET. apply I0.
  - cbn [st' p_acts]. rewrite EH. apply I0.
  - cbn [st' p_acts]. rewrite EQ. destruct (i_q _ _ _ I0) as (rs & ns & Q1 & Q2 & Q3 & Q4 & Q5). exists rs, ns. do 4 (split; [assumption|]).
    eapply Forall_impl; [|exact Q5]. intros t (A1 & A2 & A3). split; [|auto]. destruct (D' (t_id t)) as [->|[-> _]]; auto.
  - cbn [st' p_pend]. rewrite (live_ids_detach c st h new I0). apply NoDup_filter, I0.
  - cbn [st' p_pend]. apply Forall_map. rewrite Forall_forall. intros p Ip.
    pose proof (i_pend _ _ _ I0) as F. rewrite Forall_forall in F. specialize (F p Ip). destruct p as [id b|t b]; cbn [detach].
    + destruct F as (t & L & R & Eb). unfold dmem.
      change (dget id (bm_list (as_bm new))) with (lst st' id). change (dget id (bm_list (as_bm (p_acts st)))) with (lst st id).
      destruct (D' id) as [E|[E (t' & L' & N1 & N2)]]; rewrite E.
      * rewrite L. exists t. rewrite E. auto.
      * rewrite L in L'. injection L' as <-. rewrite L. cbn. subst b. auto.
    + destruct F as (A1&A2&A3&A4). cbn. repeat split; auto. lia.
  - intros id t L. destruct (D' id) as [E|[E _]]; rewrite E in L; [|discriminate].
    destruct (i_list _ _ _ I0 _ _ L) as (P & X). split; [exact P|]. destruct X as [X|[X|X]].
    + left. apply live_In. cbn [st' p_pend]. rewrite (live_ids_detach c st h new I0). apply filter_In. split; [now apply live_In|].
      unfold dmem. change (dget id (bm_list (as_bm new))) with (lst st' id). now rewrite E, L.
    + auto.
    + right. right. eapply done_later; eauto.
  - intros id en L N G. destruct (i_row _ _ _ I0 _ _ L N G) as [(t0 & L0 & A & NLi)|[(t0 & A1 & A2 & A3)|X]].
    + destruct (D' id) as [E|[E (t' & L' & N1 & N2)]].
      * left. exists t0. rewrite E. split; [exact L0|]. split; [exact A|]. intros Lv. apply NLi. apply live_In in Lv. apply live_In.
        cbn [st' p_pend] in Lv. rewrite (live_ids_detach c st h new I0) in Lv. now apply filter_In in Lv.
      * rewrite L0 in L'. injection L' as <-. right. right. destruct A as [A1 A2]. rewrite <- A1, <- A2.
        destruct (i_list _ _ _ I0 _ _ L0) as (P & _). apply over_done; auto. lia.
    + right. left. exists t0. split; [|auto]. cbn [st' p_acts]. now rewrite EQ.
    + right. right. eapply done_later; eauto.
Qed.

(** ** Deletions *)
Definition dels (evs : list call) : list db_op :=
  flat_map (fun c => match c with CDbDel (Some x) => [DDelBan j [x]] | CDbDel None => [DDelBan j []] | _ => [] end) evs.
Lemma tell_db_run evs : forall d, tell_db e evs d = db_run (e_cfg e) (dels evs) d.
Proof.
  induction evs as [|c evs IH]; intros d; [reflexivity|]. unfold tell_db in *. cbn [fold_left dels flat_map].
  fold (dels evs). rewrite db_run_app, IH. destruct c as [| | | | | | | | | |[x|]]; reflexivity.
Qed.
Lemma dels_all evs : Forall (fun o => exists l, o = DDelBan j l) (dels evs).
Proof.
  induction evs as [|c evs IH]; [constructor|]. cbn [dels flat_map]. apply Forall_app. split; [|exact IH].
  destruct c as [| | | | | | | | | |[x|]]; constructor; eauto.
Qed.
Lemma dels_sane c evs : sane_history c (dels evs).
Proof. eapply Forall_impl; [|apply dels_all]. intros o (l & ->). exact I. Qed.
Lemma dels_used evs cur : well_used j (dels evs) cur /\ enabled j (dels evs) cur = cur.
Proof.
  pose proof (dels_all evs) as F. induction F as [|o l (x & ->) _ [IH1 IH2]]; cbn; auto.
Qed.
Lemma dels_local evs id : forallb local evs = true -> forall cur, last_ban j id (dels evs) cur = cur.
Proof.
  induction evs as [|c evs IH]; intros H cur; [reflexivity|]. cbn in H. apply andb_true_iff in H as [H1 H2].
  destruct c; try discriminate; apply IH; exact H2.
Qed.
Lemma dels_none evs id : last_ban j id (dels evs) None = None.
Proof.
  induction evs as [|c evs IH]; [reflexivity|]. cbn [dels flat_map]. fold (dels evs). rewrite last_ban_app.
  destruct c as [| | | | | | | | | |[x|]]; cbn [last_ban]; try exact IH; destruct (_ && _); exact IH.
Qed.
Lemma dels_hit evs id cur : In (CDbDel (Some id)) evs -> last_ban j id (dels evs) cur = None.
Proof.
  revert cur. induction evs as [|c evs IH]; intros cur I0; [destruct I0|]; destruct I0 as [->|I1]; cbn [dels flat_map]; fold (dels evs); rewrite last_ban_app.
  - cbn [last_ban]. rewrite eqb_refl. cbn. rewrite eqb_refl. cbn. apply dels_none.
  - now apply IH.
Qed.
Lemma dels_miss evs id cur : (forall c, In c evs -> local c = true \/ exists x, c = CDbDel (Some x)) ->
  ~ In (CDbDel (Some id)) evs -> last_ban j id (dels evs) cur = cur.
Proof.
  revert cur. induction evs as [|c evs IH]; intros cur H N; [reflexivity|]. cbn [dels flat_map]; fold (dels evs); rewrite last_ban_app.
  rewrite IH; [|intros; apply H; now right|intros X; apply N; now right].
  destruct (H c (or_introl eq_refl)) as [Lc|(x & ->)]; [destruct c; try discriminate; reflexivity|].
  cbn [last_ban]. destruct (eqb_spec j j) as [_|X]; [|congruence]. cbn [andb inb existsb]. rewrite orb_false_r.
  destruct (eqb_spec id x) as [->|Nx]; [|reflexivity]. exfalso. apply N. now left.
Qed.

(** A step that lifts bans and deletes their rows. *)
Lemma inv_lift c st h new evs (gone : string -> Prop) : inv c st h -> new_calls (p_acts st) new evs -> tell_observer 0 evs = [] ->
  (forall id, (gone id /\ dget id (bm_list (as_bm new)) = None /\ last_ban j id (dels evs) (last_ban j id h None) = None)
     \/ (~ gone id /\ dget id (bm_list (as_bm new)) = lst st id /\ last_ban j id (dels evs) (last_ban j id h None) = last_ban j id h None)) ->
  (forall id, gone id -> settled st id) ->
  bm_time (as_bm new) = B -> as_queue new = as_queue (p_acts st) -> as_db new = true ->
  wf_bm (as_bm new) -> NoDup (action_names new) ->
  inv c (acted e st 0 new) (h ++ dels evs).
Proof.
  intros I0 NC TO K ST ET EQ EH W ND. unfold acted. rewrite (new_events_calls _ _ _ NC), TO, app_nil_r, tell_db_run.
  assert (PS : forall p, In p (p_pend st) -> ~ gone (pend_id p)).
  { intros p Ip G. destruct (ST _ G) as [X _]. apply X. unfold unstored. now apply in_map. }
  assert (WS : forall id t, waits st id t -> ~ gone id).
  { intros id t Wt G. destruct (ST _ G) as [_ X]. apply (X t Wt). }
  assert (EP : map (detach (p_acts st) new) (p_pend st) = p_pend st).
  { rewrite <- (map_id (p_pend st)) at 2. apply map_ext_in. intros p Ip.
    pose proof (i_pend _ _ _ I0) as F. rewrite Forall_forall in F. specialize (F p Ip). specialize (PS p Ip).
    destruct p as [id b|t b]; cbn [detach]; [|reflexivity]. destruct F as (t & L & _). cbn in PS.
    destruct (K id) as [(G & _)|(_ & E & _)]; [contradiction|]. unfold dmem. now rewrite E, L. }
  rewrite EP. set (st' := mkP new _ _).
  assert (K' : forall id, (gone id /\ lst st' id = None /\ last_ban j id (h ++ dels evs) None = None)
     \/ (~ gone id /\ lst st' id = lst st id /\ last_ban j id (h ++ dels evs) None = last_ban j id h None)).
  { intros id. rewrite last_ban_app. exact (K id). }
  clear K. constructor; auto.
  - cbn [st' p_db]. rewrite db_run_app, (i_db _ _ _ I0). reflexivity.
  - apply Forall_app. split; [apply I0|apply dels_sane].
  - apply well_used_app; [apply I0|]. apply dels_used.
  - rewrite enabled_app, (i_en _ _ _ I0). apply dels_used.
  - cbn [st' p_acts]. rewrite EQ. destruct (i_q _ _ _ I0) as (rs & ns & Q1 & Q2 & Q3 & Q4 & Q5). exists rs, ns. do 4 (split; [assumption|]).
    rewrite Forall_forall in *. intros t I1. destruct (Q5 t I1) as (A1 & A2 & A3).
    assert (Wt : waits st (t_id t) t). { split; [rewrite Q1; apply in_or_app; now left|]. auto. }
    destruct (K' (t_id t)) as [(G & _)|(_ & E & E2)]; [exfalso; eapply WS; eauto|]. rewrite E, E2. auto.
  - apply I0.
  - cbn [st' p_pend]. rewrite Forall_forall. intros p Ip. pose proof (i_pend _ _ _ I0) as F. rewrite Forall_forall in F. specialize (F p Ip).
    specialize (PS p Ip). destruct p as [id b|t b]; [|exact F]. cbn [pend_ok] in *. destruct (K' id) as [(G & _)|(_ & E & _)]; [contradiction|].
    rewrite E. exact F.
  - intros id t L. destruct (K' id) as [(_ & E & _)|(_ & E & E2)]; rewrite E in L; [discriminate|].
    destruct (i_list _ _ _ I0 _ _ L) as (P & X). split; [exact P|]. rewrite E2. exact X.
  - intros id en L N G. destruct (K' id) as [(_ & _ & E)|(_ & E & E2)]; [congruence|]. rewrite E2 in L. rewrite E.
    destruct (i_row _ _ _ I0 _ _ L N G) as [X|[(t0 & A1 & A2 & A3)|X]]; auto. right. left. exists t0. split; [|auto]. cbn [st' p_acts]. now rewrite EQ.
Qed.

Lemma inv_unban c st h ids ife : inv c st h -> fine e st (PUnban ids ife) -> exists h', inv c (p_step e st (PUnban ids ife)) h' /\ kept st (PUnban ids ife) h h'.
Proof.
  intros I0 FN. cbn [p_step fine] in *.
  assert (WF : keeps_wf (p_acts st) (fst (remove_banned (e_orc e) (e_sub e) ids true ife (p_acts st)))).
  { unfold remove_banned. apply (good_wf ""), good_remove_list. intros. apply good_remove_single. }
  destruct WF as [W ND]; [split; apply I0|].
  destruct (remove_banned (e_orc e) (e_sub e) ids true ife (p_acts st)) as [new r] eqn:E. cbn [fst] in *.
  unfold remove_banned in E. apply remove_list_spec in E as (LW & NC & _); [|apply I0].
  rewrite (i_has _ _ _ I0) in NC. cbn [andb] in NC.
  destruct LW as (L1 & L2 & L3 & L4 & L5 & L6 & L7).
  set (bans := banned_ids (p_acts st)) in *.
  set (evs := unban_calls (e_sub e) true (action_names (p_acts st)) ids bans) in *.
  exists (h ++ dels evs).
  split; cycle 1.
  { intros id. destruct (inb id ids) eqn:G1; [right; right; left; now apply inb_In|].
    destruct (inb id (lifted (e_sub e) ids bans)) eqn:G2; [right; right; right; now apply inb_In|]. apply inb_false in G1, G2. left.
    rewrite last_ban_app. apply dels_miss; [intros; now apply (unban_no_observer (e_sub e) (action_names (p_acts st)) ids bans)|].
    intros X. apply unban_deletes in X. tauto. }
  apply (inv_lift c st h new evs (fun id => In id ids \/ In id (lifted (e_sub e) ids bans))); auto.
  - assert (X : forall c, In c evs -> match c with CObserver _ => False | _ => True end).
    { intros x Ix. apply unban_no_observer in Ix as [Ix|(y & ->)]; [destruct x; auto; discriminate|exact I]. }
    clear -X. induction evs as [|x l IH]; [reflexivity|]. cbn [tell_observer flat_map].
    pose proof (X x (or_introl eq_refl)). unfold tell_observer in IH. rewrite IH by (intros; apply X; now right).
    destruct x; auto. destruct H.
  - intros id. rewrite L1. rewrite dget_filter by apply I0. cbn [fst].
    assert (Dec : In id ids \/ In id (lifted (e_sub e) ids bans) \/ (~ In id ids /\ ~ In id (lifted (e_sub e) ids bans))).
    { destruct (inb id ids) eqn:E1; [left; now apply inb_In|]. destruct (inb id (lifted (e_sub e) ids bans)) eqn:E2; [right; left; now apply inb_In|].
      apply inb_false in E1, E2. auto. }
    assert (Dec2 : (In id ids \/ In id (lifted (e_sub e) ids bans)) \/ (~ In id ids /\ ~ In id (lifted (e_sub e) ids bans))) by tauto.
    destruct Dec2 as [G|[G1 G2]].
    + left. split; [exact G|]. split.
      * unfold lst. destruct (dget id (bm_list (as_bm (p_acts st)))) as [t|] eqn:Ld; [|reflexivity].
        assert (In id (lifted (e_sub e) ids bans)).
        { destruct G as [G|G]; [|exact G]. apply unban_gone; [exact G|]. apply ban_list_In. unfold dmem. now rewrite Ld. }
        apply inb_In in H. now rewrite H.
      * apply dels_hit. now apply unban_deletes.
    + right. split; [tauto|]. split.
      * unfold lst. apply inb_false in G2. rewrite G2. now destruct (dget id (bm_list (as_bm (p_acts st)))).
      * apply dels_miss; [intros; now apply (unban_no_observer (e_sub e) (action_names (p_acts st)) ids bans)|].
        intros X. apply unban_deletes in X. tauto.
  - now rewrite L2, (i_time _ _ _ I0).
  - now rewrite L5, (i_has _ _ _ I0).
Qed.

Lemma inv_flush c st h : inv c st h -> fine e st PFlush -> exists h', inv c (p_step e st PFlush) h' /\ kept st PFlush h h'.
Proof.
  intros I0 FN. cbn [p_step fine] in *.
  assert (QC : quiet_checks (e_orc e)) by apply SE.
  destruct (flush_step (e_orc e) (p_acts st) QC (i_has _ _ _ I0) (i_nd _ _ _ I0) (i_wf _ _ _ I0)) as (L1 & L2 & L3 & L4 & a & b & NC & La & Lb).
  pose proof (flush_ban_wf (e_orc e) true (p_acts st)) as WF. destruct WF as [W ND]; [split; apply I0|]. cbn zeta in *.
  set (new := fst (flush_ban (e_orc e) true None (p_acts st))) in *. clearbody new.
  exists (h ++ dels (a ++ CDbDel None :: b)). split; [|intros id; right; right; exact I].
  apply (inv_lift c st h new (a ++ CDbDel None :: b) (fun _ => True)); auto.
  - unfold tell_observer. rewrite flat_map_app. cbn [flat_map app]. fold (tell_observer 0 a) (tell_observer 0 b).
    now rewrite !local_observer by assumption.
  - intros id. left. split; [exact I|]. rewrite L1. split; [reflexivity|].
    unfold dels. rewrite flat_map_app. cbn [flat_map]. fold (dels a) (dels b). rewrite !last_ban_app. cbn [last_ban].
    rewrite eqb_refl. cbn. apply dels_none.
  - now rewrite L2, (i_time _ _ _ I0).
Qed.

(** ** The observer *)
Lemma live_cons p r st id : p_pend st = p :: r -> forall a d, live (mkP a r d) id -> live st id.
Proof. intros E a d (b & Ib). exists b. rewrite E. now right. Qed.

(** Removing the first event; [t'] is the ticket now in the list. *)
Lemma inv_observed c c' st h id b r t t' d h' : inv c st h -> c <= c' -> p_pend st = PLive id b :: r -> lst st id = Some t ->
  t_id t' = id -> t_time t' = t_time t -> proper (get_bantime B t') ->
  (d = p_db st /\ h' = h /\ get_bantime B t' <> -1 /\ t_time t' + get_bantime B t' < c'
   \/ d = fst (Database_Model.add_ban (e_cfg e) j B t' (p_db st)) /\ h' = h ++ [DAddBan j B t']) ->
  let bm := as_bm (p_acts st) in
  inv c' (mkP (with_bm (bm_with_list (dset id t' (bm_list bm)) bm) (p_acts st)) r d) h'.
Proof.
  intros I0 LC EP L ID TM P Cs bm. set (st' := mkP _ _ _).
  assert (LS : forall i, lst st' i = if eqb i id then Some t' else lst st i).
  { intros i. unfold lst. cbn [st' p_acts as_bm with_bm bm_list bm_with_list]. rewrite dget_dset. reflexivity. }
  assert (NL : NoDup (live_ids (p_pend st))) by apply I0. rewrite EP in NL. cbn [live_ids flat_map app] in NL. fold (live_ids r) in NL.
  inversion NL as [|? ? Nin NL']; subst x l.
  assert (NLid : ~ live st' id) by (intros X; apply live_In in X; exact (Nin X)).
  assert (LV : forall i, i <> id -> live st' i <-> live st i).
  { intros i N. unfold live. rewrite EP. cbn [st' p_pend]. split; intros (b0 & X); exists b0; [now right|]. destruct X as [X|X]; [congruence|exact X]. }
  assert (LB : forall i, last_ban j i h' None = last_ban j i h None /\ (i <> id \/ h' = h)
             \/ i = id /\ last_ban j i h' None = Some (B, t')).
  { intros i. destruct Cs as [(_ & -> & _)|(_ & ->)]; [left; auto|]. rewrite last_ban_app. cbn [last_ban].
    rewrite eqb_refl. cbn [andb]. destruct (eqb_spec i (t_id t')) as [->|N]; [right|left]; auto. split; [reflexivity|]. left. congruence. }
  assert (WQ : forall i x, waits st' i x <-> waits st i x) by (intros; reflexivity).
  constructor.
  - destruct Cs as [(-> & -> & _)|(-> & ->)]; cbn [st' p_db]; [apply I0|]. rewrite db_run_app, <- (i_db _ _ _ I0). reflexivity.
  - destruct Cs as [(_ & -> & _)|(_ & ->)]; [eapply sane_later; [exact LC|apply I0]|].
    apply Forall_app. split; [eapply sane_later; [exact LC|apply I0]|]. constructor; [exact P|constructor].
  - destruct Cs as [(_ & -> & _)|(_ & ->)]; [apply I0|]. apply well_used_app; [apply I0|]. cbn. rewrite eqb_refl. split; [apply I0|exact I].
  - destruct Cs as [(_ & -> & _)|(_ & ->)]; [apply I0|]. rewrite enabled_app. apply I0.
  - cbn [st' p_acts as_bm with_bm]. eapply wf_bm_dset; [apply I0| |reflexivity]. exact ID.
  - apply I0.
  - apply I0.
  - apply I0.
  - destruct (i_q _ _ _ I0) as (rs & ns & Q1 & Q2 & Q3 & Q4 & Q5). exists rs, ns. do 4 (split; [assumption|]).
    eapply Forall_impl; [|exact Q5]. intros t0 (A1 & A2 & en & A3 & A4).
    assert (N : t_id t0 <> id) by congruence. rewrite LS. destruct (eqb_spec (t_id t0) id); [congruence|]. split; [exact A1|]. split; [exact A2|].
    destruct (LB (t_id t0)) as [(E & _)|(E & _)]; [|congruence]. exists en. now rewrite E.
  - exact NL'.
  - rewrite Forall_forall. intros p Ip. pose proof (i_pend _ _ _ I0) as F. rewrite EP, Forall_forall in F. specialize (F p (or_intror Ip)).
    destruct p as [i b0|t0 b0]; cbn [pend_ok] in *.
    + rewrite LS. destruct (eqb_spec i id) as [->|N]; [|exact F]. exfalso. apply NLid. now exists b0.
    + destruct F as (A1&A2&A3&A4). repeat split; auto. lia.
  - intros i t0 L0. rewrite LS in L0. destruct (eqb_spec i id) as [->|N].
    + injection L0 as <-. split; [exact P|]. right. destruct Cs as [(_ & _ & X1 & X2)|(_ & Eh)].
      * right. apply over_done; auto. lia.
      * left. exists (B, t'). split; [|split; reflexivity]. destruct (LB id) as [(_ & [X|X])|(_ & X)]; [congruence| |exact X].
        exfalso. rewrite Eh in X. rewrite <- app_nil_r in X. apply app_inv_head in X. discriminate.
    + destruct (i_list _ _ _ I0 _ _ L0) as (P0 & X). split; [exact P0|]. destruct X as [X|[(en & X & Y)|X]].
      * left. now apply LV.
      * right. left. exists en. destruct (LB i) as [(E & _)|(E & _)]; [|congruence]. now rewrite E.
      * right. right. eapply done_later; eauto.
  - intros i en L0 N G. destruct (LB i) as [(E & Hh)|(-> & E)]; rewrite E in L0.
    + destruct (i_row _ _ _ I0 _ _ L0 N G) as [(t0 & Lt0 & A & NLi)|[(t0 & X)|X]].
      * assert (Ni : i <> id). { intros ->. apply NLi. exists b. rewrite EP. now left. }
        left. exists t0. rewrite LS. destruct (eqb_spec i id); [congruence|]. split; [exact Lt0|]. split; [exact A|]. now rewrite LV.
      * right. left. exists t0. now apply WQ.
      * right. right. eapply done_later; eauto.
    + injection L0 as <-. left. exists t'. rewrite LS, eqb_refl. split; [reflexivity|]. split; [split; reflexivity|exact NLid].
Qed.

Lemma inv_dead c c' st h t b r : inv c st h -> c <= c' -> p_pend st = PDead t b :: r -> inv c' (mkP (p_acts st) r (p_db st)) h.
Proof.
  intros I0 LC EP.
  assert (I1 : inv c' st h). { apply (inv_sim c c' st st h I0 LC); auto; try apply I0. intros; apply osim_refl. }
  assert (LV : forall i, live (mkP (p_acts st) r (p_db st)) i <-> live st i).
  { intros i. unfold live. rewrite EP. cbn [p_pend]. split; intros (b0 & X); exists b0; [now right|]. destruct X as [X|X]; [congruence|exact X]. }
  clear I0. destruct I1. constructor; auto.
  - rewrite EP in i_nl0. exact i_nl0.
  - rewrite EP in i_pend0. inversion i_pend0; auto.
  - intros id t0 L0. destruct (i_list0 id t0 L0) as (P & X). split; [exact P|]. destruct X as [X|X]; [left; now apply LV|auto].
  - intros id en L0 N G. destruct (i_row0 id en L0 N G) as [(t0 & A1 & A2 & A3)|X]; [left|right; exact X]. exists t0. rewrite LV. auto.
Qed.

Lemma inv_observe c st h now inc : inv c st h -> c <= now -> fine e st (PObserve now inc) -> exists h', inv now (p_step e st (PObserve now inc)) h' /\ kept st (PObserve now inc) h h'.
Proof.
  intros I0 LC FN. cbn [p_step fine] in *. unfold observe. destruct (p_pend st) as [|p r] eqn:EP.
  { exists h. split; [|apply kept_refl]. apply (inv_sim c now st st h I0 LC); auto; try apply I0. intros; apply osim_refl. }
  pose proof (i_pend _ _ _ I0) as F. rewrite EP in F. apply Forall_inv in F. destruct p as [id b|t b].
  - destruct F as (t & L & R & Eb). cbn zeta. unfold lst in L. rewrite L. fold (lst st id) in L. rewrite R.
    destruct (i_list _ _ _ I0 _ _ L) as (P & _).
    assert (ID : t_id t = id) by (apply (proj2 (i_wf _ _ _ I0)); exact L).
    match goal with |- context [if ?x then inc else None] => set (inc' := if x then inc else None) end.
    assert (K : exists b' t', (match inc' with Some (b0, again) => (b0, with_restored again (with_bantime (Some b0) t)) | None => (b, t) end) = (b', t')
               /\ t_id t' = id /\ t_time t' = t_time t /\ t_restored t' = false /\ b' = get_bantime B t' /\ proper b').
    { unfold inc'. destruct (_ && _).
      - destruct inc as [[b0 again]|].
        + destruct FN as [Pb ->]. eexists _, _. split; [reflexivity|]. cbn. auto.
        + eexists _, _. split; [reflexivity|]. subst b. auto 6.
      - eexists _, _. split; [reflexivity|]. subst b. auto 6. }
    destruct K as (b' & t' & -> & ID' & TM & R' & Eb' & P'). clear inc'. rewrite R', (i_time _ _ _ I0).
    destruct (negb (b' =? -1) && (t_time t' + b' <? now)) eqn:Old.
    + exists h. split; [|apply kept_refl]. apply (inv_observed c now st h id b r t t' (p_db st) h I0 LC EP L ID' TM); [now subst b'|].
      left. subst b'. apply andb_true_iff in Old as [O1 O2]. repeat split; auto; lia.
    + exists (h ++ [DAddBan j B t']). split; cycle 1.
      { intros i. rewrite last_ban_app. cbn [last_ban]. rewrite eqb_refl. cbn [andb]. destruct (eqb_spec i (t_id t')) as [->|N]; [|now left].
        right. left. exists b. rewrite EP, ID'. now left. }
      eapply (inv_observed c now st h id b r t t' _ _ I0 LC EP L ID' TM); [now subst b'|]. right. split; reflexivity.
  - destruct F as (Eb & N1 & Ov & R). destruct inc as [x|]; [destruct FN|]. cbn zeta. rewrite R.
    replace (if negb (b =? -1) && _ then None else None) with (@None (Z * bool)) by (destruct (_ && _); reflexivity).
    replace (negb (b =? -1) && (t_time t + b <? now)) with true by lia. exists h. split; [|apply kept_refl]. now apply (inv_dead c now st h t b).
Qed.

(** ** Other calls of the database *)
Lemma db_elsewhere h o i : elsewhere e o -> last_ban j i (h ++ [o]) None = last_ban j i h None.
Proof.
  intros EL. rewrite last_ban_app. destruct o as [j0|j0| |j0 bt0 t0|j0 ips0|n0|j0 pa0 po0 md0|j0 pa0 po0 md0|ip0 ja0 bt0 n0]; cbn in *; auto.
  - destruct EL as [EL _]. destruct (eqb_spec j j0); [congruence|]. reflexivity.
  - destruct (eqb_spec j j0); [congruence|]. reflexivity.
Qed.
Lemma inv_db c st h o : inv c st h -> c <= tick c (PDb o) -> elsewhere e o -> inv (tick c (PDb o)) (p_step e st (PDb o)) (h ++ [o]).
Proof.
  intros I0 LC EL. cbn [p_step].
  assert (I1 : inv (tick c (PDb o)) st h). { apply (inv_sim c _ st st h I0 LC); auto; try apply I0. intros; apply osim_refl. }
  assert (LB : forall i, last_ban j i (h ++ [o]) None = last_ban j i h None).
  { intros i. rewrite last_ban_app. destruct o as [j0|j0| |j0 bt0 t0|j0 ips0|n0|j0 pa0 po0 md0|j0 pa0 po0 md0|ip0 ja0 bt0 n0]; cbn in *; auto.
    - destruct EL as [EL _]. destruct (eqb_spec j j0); [congruence|]. reflexivity.
    - destruct (eqb_spec j j0); [congruence|]. reflexivity. }
  assert (EN : enabled j [o] true = true).
  { destruct o as [j0|j0| |j0 bt0 t0|j0 ips0|n0|j0 pa0 po0 md0|j0 pa0 po0 md0|ip0 ja0 bt0 n0]; cbn in *; auto; try (destruct (eqb_spec j j0); congruence). }
  clear I0. destruct I1. constructor; auto.
  - cbn [p_db]. rewrite db_run_app, i_db0. reflexivity.
  - apply Forall_app. split; [exact i_sane0|]. constructor; [|constructor]. destruct o as [j0|j0| |j0 bt0 t0|j0 ips0|n0|j0 pa0 po0 md0|j0 pa0 po0 md0|ip0 ja0 bt0 n0]; cbn in *; auto; [apply EL|lia].
  - apply well_used_app; [exact i_used0|]. rewrite i_en0. split; [|exact I]. destruct o as [j0|j0| |j0 bt0 t0|j0 ips0|n0|j0 pa0 po0 md0|j0 pa0 po0 md0|ip0 ja0 bt0 n0]; auto. destruct (eqb_spec j j0); [|exact I]. destruct EL. congruence.
  - rewrite enabled_app, i_en0. exact EN.
  - destruct i_q0 as (rs & ns & Q1 & Q2 & Q3 & Q4 & Q5). exists rs, ns. do 4 (split; [assumption|]). eapply Forall_impl; [|exact Q5].
    intros t (A1 & A2 & en & A3 & A4). split; [exact A1|]. split; [exact A2|]. exists en. now rewrite LB.
  - intros id t L. destruct (i_list0 id t L) as (P & X). split; [exact P|]. destruct X as [X|[(en & X & Y)|X]]; auto. right. left. exists en. now rewrite LB.
  - intros id en L. rewrite LB in L. apply (i_row0 id en L).
Qed.

(** ** A restart *)
Lemma inv_restart_gen now st h : p_db st = db_run (e_cfg e) h db_init -> sane_history now h -> well_used j h false ->
  inv now (restart e st now) (h ++ [DStart; DAddJail j]).
Proof.
  intros ED SH WU. set (h' := h ++ [DStart; DAddJail j]).
  assert (SH' : sane_history now h') by (apply Forall_app; split; [exact SH|]; repeat constructor).
  assert (WU' : well_used j h' false) by (apply well_used_app; [exact WU|]; cbn; auto).
  assert (EN : enabled j h' false = true) by (unfold h'; rewrite enabled_app; cbn; now rewrite eqb_refl).
  assert (LB : forall i, last_ban j i h' None = last_ban j i h None) by (intros i; unfold h'; now rewrite last_ban_app).
  assert (ED' : p_db (restart e st now) = db_run (e_cfg e) h' db_init).
  { unfold restart, h'. cbn [p_db]. rewrite db_run_app, <- ED. reflexivity. }
  destruct (Database_Props.C21_restore_exact (e_cfg e) js j h' now (e_ign e) SC SJ SH' WU') as (R1 & R2 & R3). cbn zeta in *.
  pose proof (fun ip => hist (e_cfg e) j h' now SC SH' WU' ip) as HS.
  pose proof SE as (_ & _ & _ & (FA & FB & _) & BT & QE & DB & _). destruct FB as [FB _].
  assert (LN : forall i, lst (restart e st now) i = None) by (intros i; unfold lst; cbn; now rewrite FB).
  assert (EQ : as_queue (p_acts (restart e st now)) = restore j js now (fun _ => now) (e_ign e) (db_run (e_cfg e) h' db_init)).
  { rewrite <- ED'. reflexivity. }
  set (q := restore j js now (fun _ => now) (e_ign e) (db_run (e_cfg e) h' db_init)) in *.
  constructor; auto.
  - cbn [restart p_acts as_bm with_queue]. split; rewrite FB; [apply dwf_nil|discriminate].
  - exists q, []. rewrite app_nil_r. split; [exact EQ|]. split; [exact R1|]. split; [|split; [constructor|]].
    + rewrite Forall_forall. intros t It. destruct (R2 t It) as (en & _ & RS). apply RS.
    + rewrite Forall_forall. intros t It. destruct (R2 t It) as (en & Le & RS). split; [apply LN|].
      destruct RS as (S1&S2&S3&S4&S5&S6&S7). destruct (HS (t_id t)) as [_ SEn]. rewrite Le in SEn. cbn [sane_entry] in SEn.
      assert (GB : get_bantime B t = elen en) by (unfold get_bantime; now rewrite S3).
      split; [|exists en; split; [exact Le|]].
      * rewrite GB. unfold elen, proper. pose proof (limited_pos js _ SEn). lia.
      * split; [exact S2|]. unfold length_then. fold B. rewrite GB. unfold elen. now apply limited_idem.
  - constructor.
  - constructor.
  - intros id t L. rewrite LN in L. discriminate.
  - intros id en L N G. destruct (HS id) as [_ SEn]. rewrite L in SEn. cbn [sane_entry] in SEn.
    assert (Dec : running now (t_time (snd en)) (elen en) \/ done now (t_time (snd en)) (elen en)) by (unfold running, done; lia).
    destruct Dec as [Ru|D]; [|auto]. right. left.
    assert (I1 : In id (map t_id q)).
    { apply R3. split; [exact N|]. split; [exact G|]. exists en. split; [exact L|]. split; [|exact Ru].
      eapply last_ban_id; [|exact L]. discriminate. }
    apply in_map_iff in I1 as (t & Et & It). exists t. destruct (R2 t It) as (en2 & Xx & RS). split; [now rewrite EQ|]. split; [apply RS|exact Et].
Qed.

(** ** Banning *)
Lemma perm_or now t : proper (get_bantime B t) -> now <= MAX_TIME -> end_of_ban B t < now ->
  get_bantime B t <> -1 /\ t_time t + get_bantime B t <= now.
Proof. unfold end_of_ban. intros P LM L. destruct (Z.eqb_spec (get_bantime B t) (-1)); lia. Qed.

Lemma inv_take c st h now ra : inv c st h -> c <= now <= MAX_TIME -> fine e st (PTake now ra) ->
  inv now (p_step e st (PTake now ra)) h.
Proof.
  intros I0 [LC LM] FN. cbn [p_step fine] in *. destruct (as_queue (p_acts st)) as [|tk q] eqn:EQ.
  { apply (inv_sim c now st st h I0 LC); auto; try apply I0. intros; apply osim_refl. }
  rewrite (i_time _ _ _ I0). set (s1 := with_queue q (p_acts st)) in *.
  destruct (check_ban_one (e_orc e) tk now ra s1) as [new r] eqn:E. cbn [fst].
  assert (BT : bm_time (as_bm s1) = B) by apply I0.
  assert (W : wf_bm (as_bm new) /\ NoDup (action_names new)).
  { apply (good_wf "" _ _ (good_check_ban_one _ _ _ _ _ _ _ _ E)). split; apply I0. }
  destruct (i_q _ _ _ I0) as (rs & ns & Q1 & Q2 & Q3 & Q4 & Q5). rewrite EQ in Q1.
  assert (HD : t_restored tk = true /\ proper (get_bantime B tk) /\ lst st (t_id tk) = None
               \/ t_restored tk = false /\ proper (get_bantime B tk) /\ Forall (fun t => t_restored t = false) (tk :: q)).
  { destruct rs as [|r0 rs]; cbn [app] in Q1.
    - right. rewrite <- Q1 in Q4. inversion Q4 as [|? ? [A1 A2] A3]; subst. split; [exact A1|]. split; [exact A2|].
      constructor; [exact A1|]. eapply Forall_impl; [|exact A3]. now intros ? [? _].
    - left. injection Q1 as -> _. inversion Q3; subst. inversion Q5 as [|? ? (A1 & A2 & _) _]; subst. auto. }
  pose proof (one_ticket (e_orc e) tk now ra s1 new r E) as OT. rewrite BT in OT.
  destruct (OT FN) as [(CM & Wy)|(LN & EN & LT & OS & ET & EQ' & EH & cs & NC & LL)].
  - change (acted e st (get_bantime B tk) new) with (acted e (mkP s1 (p_pend st) (p_db st)) (get_bantime B tk) new).
    eapply (calm_acted now now); [|lia|exact CM|apply W|apply W].
    eapply inv_pop; eauto. intros R. destruct HD as [(_ & P & LN)|(R' & _)]; [|congruence].
    destruct Wy as [Wy|Wy]; [|now elim Wy]. destruct (perm_or now tk P LM Wy). now apply over_done.
  - destruct HD as [(R & P & _)|(R & P & AllF)]; rewrite R in NC.
    + eapply (inv_rban c now st h tk q new cs); eauto; try apply W. rewrite EH. apply I0.
    + change (acted e st (get_bantime B tk) new) with (acted e (mkP s1 (p_pend st) (p_db st)) (get_bantime B tk) new).
      eapply (inv_ban now now (mkP s1 (p_pend st) (p_db st)) h tk new cs); eauto; try apply W; try lia.
      * eapply inv_pop; eauto. congruence.
      * intros t (A1 & A2 & _). cbn in A1. rewrite Forall_forall in AllF. rewrite (AllF t) in A2 by now right. discriminate.
      * rewrite EH. apply I0.
Qed.

Lemma inv_pban c st h id now ra : inv c st h -> c <= now <= MAX_TIME -> fine e st (PBan id now ra) ->
  inv now (p_step e st (PBan id now ra)) h.
Proof.
  intros I0 [LC LM] [FN NWt]. cbn [p_step]. rewrite (i_time _ _ _ I0). set (tk := command_ticket id now) in *.
  destruct (check_ban_one (e_orc e) tk now ra (p_acts st)) as [new r] eqn:E. cbn [fst].
  assert (W : wf_bm (as_bm new) /\ NoDup (action_names new)).
  { apply (good_wf "" _ _ (good_check_ban_one _ _ _ _ _ _ _ _ E)). split; apply I0. }
  assert (BT : bm_time (as_bm (p_acts st)) = B) by apply I0.
  pose proof (one_ticket (e_orc e) tk now ra _ new r E) as OT. rewrite BT in OT.
  destruct (OT FN) as [(CM & Wy)|(LN & EN & LT & OS & ET & EQ' & EH & cs & NC & LL)].
  - eapply (calm_acted c now); eauto; apply W.
  - eapply (inv_ban c now st h tk new cs); eauto; try apply W.
    rewrite EH. apply I0.
Qed.

(** ** All operations *)
Theorem inv_step c st h o : inv c st h -> c <= tick c o <= MAX_TIME -> fine e st o ->
  exists h', inv (tick c o) (p_step e st o) h' /\ kept st o h h'.
Proof.
  intros I0 CT FN. destruct o as [tk|now ra|id now ra|now n|ids ie| |now inc|o|now]; unfold tick in *; cbn [op_time] in *.
  - exists h. split; [|apply kept_refl]. destruct FN. now apply inv_put.
  - exists h. split; [|apply kept_refl]. now apply (inv_take c).
  - exists h. split; [|apply kept_refl]. now apply (inv_pban c).
  - exists h. split; [|apply kept_refl]. apply (inv_expire c); assumption.
  - now apply (inv_unban c st h).
  - now apply (inv_flush c st h).
  - eapply inv_observe; [exact I0|lia|exact FN].
  - exists (h ++ [o]). split; [exact (inv_db c st h o I0 (proj1 CT) FN)|]. intros i. left. now apply db_elsewhere.
  - exists (h ++ [DStart; DAddJail j]). split; [|intros i; left; now rewrite last_ban_app].
    cbn [p_step]. apply (inv_restart_gen now st h); try apply I0. eapply sane_later; [apply CT|apply I0].
Qed.

Theorem inv_run ops : forall c st h, inv c st h -> careful e c st ops -> exists h', inv (clock_after c ops) (p_run e st ops) h'.
Proof.
  induction ops as [|o ops IH]; intros c st h I0 CF; [now exists h|]. destruct CF as (CT & FN & CF).
  destruct (inv_step c st h o I0 CT FN) as (h1 & I1 & _). exact (IH _ _ _ I1 CF).
Qed.

Theorem inv_first now : exists h, inv now (p_first e now) h.
Proof. eexists. apply (inv_restart_gen now _ []); [reflexivity|constructor|exact I]. Qed.

(** A stored ban that is running. *)
Lemma stored_in_force c st h id en : inv c st h -> last_ban j id h None = Some en -> id <> ""%string -> e_ign e id = false ->
  running c (t_time (snd en)) (elen en) -> ~ live st id /\ exists t, in_force st id t /\ agree t en.
Proof.
  intros I0 L N G Ru. destruct (i_row _ _ _ I0 _ _ L N G) as [(t & A1 & A2 & A3)|[(t & W)|D]].
  - split; [exact A3|]. exists t. split; [now left|exact A2].
  - destruct (i_q _ _ _ I0) as (rs & ns & Q1 & Q2 & Q3 & Q4 & Q5). pose proof W as (W1 & W2 & W3). rewrite Q1 in W1. apply in_app_or in W1 as [W1|W1].
    + rewrite Forall_forall in Q5. destruct (Q5 t W1) as (A1 & A2 & en' & A3 & A4). rewrite W3 in A1, A3. split.
      * intros (b & Ib). pose proof (i_pend _ _ _ I0) as F. rewrite Forall_forall in F. destruct (F _ Ib) as (t0 & L0 & _). congruence.
      * exists t. split; [now right|]. congruence.
    + rewrite Forall_forall in Q4. destruct (Q4 t W1). congruence.
  - now apply done_running in D.
Qed.
Lemma in_force_stored c st h id t : inv c st h -> in_force st id t -> ~ live st id -> still_runs e c t ->
  exists en, last_ban j id h None = Some en /\ agree t en.
Proof.
  intros I0 [L|W] NL SR.
  - destruct (i_list _ _ _ I0 _ _ L) as (P & [X|[X|X]]); [contradiction|exact X|]. now apply done_running in X.
  - destruct (i_q _ _ _ I0) as (rs & ns & Q1 & Q2 & Q3 & Q4 & Q5). destruct W as (W1 & W2 & W3). rewrite Q1 in W1. apply in_app_or in W1 as [W1|W1].
    + rewrite Forall_forall in Q5. destruct (Q5 t W1) as (A1 & A2 & X). rewrite W3 in X. exact X.
    + rewrite Forall_forall in Q4. destruct (Q4 t W1). congruence.
Qed.
Lemma running_before c c' time l : c <= c' -> running c' time l -> running c time l.
Proof. unfold running. lia. Qed.
Lemma clock_mono ops : forall c st, careful e c st ops -> c <= clock_after c ops.
Proof.
  induction ops as [|o ops IH]; intros c st CF; cbn; [lia|]. destruct CF as (CT & _ & CF). specialize (IH _ _ CF). unfold clock_after in IH. lia.
Qed.
End Env.
