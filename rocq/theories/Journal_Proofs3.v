From Coq Require Import ZArith List Bool Lia ZifyBool.
From Verif Require Import Base Text Journal_Model Journal_Spec Journal_Proofs Journal_Proofs2.
Import ListNotations.
Local Open Scope Z_scope.

Section T.
Variables (valid : text -> bool) (has_db : bool) (findtime : Z).
Notation thread := (thread has_db findtime).
Notation step := (step valid has_db findtime).
Notation run := (run valid has_db findtime).

(** ** The fields of a step that is no run of the thread *)
Definition rest_eq (s s' : st) : Prop :=
  s_loc s' = s_loc s /\ s_errors s' = s_errors s /\ s_ticks s' = s_ticks s /\ s_wcode s' = s_wcode s /\ s_inop s' = s_inop s /\ s_mark s' = s_mark s /\
  s_batch s' = s_batch s /\ s_last s' = s_last s /\ s_pend s' = s_pend s /\ s_upd s' = s_upd s /\ s_db s' = s_db s /\ s_pc s' = s_pc s /\ s_read s' = s_read s.
Lemma env_rest s o : is_run o = false -> rest_eq s (step s o).
Proof.
  intros R. destruct o; try discriminate R; cbn [Journal_Model.step]; try solve [repeat split].
  - destruct (add_match valid m (s_matches s) (s_reader s)) as (x & (ms & r)). repeat split.
  - destruct (del_match valid m (s_matches s) (s_reader s)) as (x & (ms & r)). repeat split.
Qed.
Lemma env_now s o : is_run o = false -> s_now s <= s_now (step s o).
Proof.
  intros R. destruct o; try discriminate R; cbn [Journal_Model.step]; cbn; try lia.
  - destruct (add_match valid m (s_matches s) (s_reader s)) as (x & (ms & r)). cbn. lia.
  - destruct (del_match valid m (s_matches s) (s_reader s)) as (x & (ms & r)). cbn. lia.
Qed.

(** ** What one step of the thread does to the position *)
Definition newest (s : st) : option Z :=
  match s_last s with Some t => Some t | None => match s_pend s with Some t => Some t | None => s_db s end end.
Lemma or_else_id {A} (o : option A) : match o with Some t => Some t | None => None end = o.
Proof. destruct o; reflexivity. Qed.

Definition good_pos (s : st) : Prop := s_pc s = PWait -> s_last s = None.

Inductive pstep (bad : bool) (s s' : st) : Prop :=
| PHand e b : s_pc s = PRead -> bad = false -> s_read s' = s_read s ++ [(e, Some b)] -> s_last s' = Some (entry_time e) -> s_pend s' = s_pend s -> s_db s' = s_db s -> s_upd s' = s_upd s -> s_pc s' <> PWait -> s_pc s' <> PDone -> pstep bad s s'
| PBad e : s_pc s = PRead -> bad = true -> s_read s' = s_read s ++ [(e, None)] -> s_last s' = s_last s -> s_pend s' = s_pend s -> s_db s' = s_db s -> s_upd s' = s_upd s -> s_pc s' = PWait -> pstep bad s s'
| PStore p : s_pc s = PEnd -> has_db = true -> newest s = Some p -> s_read s' = s_read s -> s_last s' = None -> s_pend s' = None -> s_db s' = Some p -> s_upd s' = s_now s + 10 * second -> s_pc s' = PWait -> pstep bad s s'
| PKeep p : s_pc s = PEnd -> has_db = true -> newest s = Some p -> s_read s' = s_read s -> s_last s' = None -> s_pend s' = Some p -> s_db s' = s_db s -> s_upd s' = s_upd s -> s_now s < s_upd s -> s_pc s' = PWait -> pstep bad s s'
| PNone : s_pc s = PEnd -> has_db = true -> s_last s = None -> s_pend s = None -> s_read s' = s_read s -> s_last s' = None -> s_pend s' = None -> s_db s' = s_db s -> s_upd s' = s_upd s -> s_pc s' = PWait -> pstep bad s s'
| PFin p : s_pc s = PWait -> has_db = true -> s_pend s = Some p -> s_read s' = s_read s -> s_last s' = s_last s -> s_pend s' = None -> s_db s' = Some p -> s_upd s' = s_upd s -> s_pc s' = PDone -> pstep bad s s'
| PFin0 : s_pc s = PWait -> has_db = true -> s_pend s = None -> s_read s' = s_read s -> s_last s' = s_last s -> s_pend s' = None -> s_db s' = s_db s -> s_upd s' = s_upd s -> s_pc s' = PDone -> pstep bad s s'
| PElse : s_read s' = s_read s -> s_last s' = s_last s -> s_pend s' = s_pend s -> s_db s' = s_db s -> s_upd s' = s_upd s ->
    (s_pc s' = PWait -> s_pc s = PWait \/ (exists x, s_pc s = PSeek x) \/ has_db = false) -> (s_pc s' = PDone -> s_pc s = PDone \/ has_db = false) -> pstep bad s s'.

Lemma thread_pos w err bad s : pstep bad s (thread w err bad s).
Proof.
  unfold Journal_Model.thread. destruct (s_pc s) eqn:P.
  - apply PElse; unfold check_last; destruct (get_previous _ _ _) as ([e|], l); try reflexivity; cbn; discriminate.
  - apply PElse; unfold seek_start; destruct last; try reflexivity; cbn; try discriminate; eauto.
  - destruct (s_active s) eqn:A; cbn [negb].
    + cbv zeta.
      assert (forall (wc : wcode) (b : bool), let x := match wc with INVALIDATE => if b then back_and_forth s else s | _ => s end in
        s_read x = s_read s /\ s_last x = s_last s /\ s_pend x = s_pend s /\ s_db x = s_db s /\ s_upd x = s_upd s) as K.
      { intros wc b x. unfold x. destruct wc; try solve [repeat split]. destruct b; [|repeat split]. unfold back_and_forth. destruct (get_previous _ _ _) as ([e|], l); repeat split. }
      match goal with |- context [if s_idle (match ?wc with _ => _ end) then _ else _] => 
        match goal with |- context [if ?bb && ?cc then back_and_forth s else s] => specialize (K wc (bb && cc)); generalize dependent (match wc with INVALIDATE => if bb && cc then back_and_forth s else s | _ => s end) end end.
      cbv zeta. intros x (K1 & K2 & K3 & K4 & K5). destruct (s_idle x); (apply PElse; cbn [set_pc s_read s_last s_pend s_db s_upd s_pc]; auto; discriminate).
    + unfold finish. destruct has_db eqn:D; [destruct (s_pend s) eqn:E|].
      * eapply PFin; try reflexivity; try assumption.
      * eapply PFin0; try reflexivity; try assumption.
      * apply PElse; cbn; auto; discriminate.
  - destruct (s_active s) eqn:A; cbn [negb]; [|apply PElse; try reflexivity; cbn; discriminate].
    destruct (if err then (None, s_loc s) else get_next (selects (s_reader s)) (s_journal s) (s_loc s)) as ([e|], l).
    + destruct bad.
      * unfold common_error. destruct (100 <=? _); eapply PBad; try reflexivity; exact P.
      * cbv zeta. destruct (switch_mode_eq e (set_loc l s)) as (bo & m & ->). destruct (100 <=? _); eapply PHand; try reflexivity; try exact P; cbn; discriminate.
    + apply PElse; try reflexivity; cbn; discriminate.
  - unfold end_batch. destruct has_db eqn:D; [|apply PElse; try reflexivity; cbn; auto; discriminate].
    cbv zeta. unfold newest in *.
    destruct (match s_last s with Some t => Some t | None => s_pend s end) as [p|] eqn:E.
    + assert (newest s = Some p) as Nw by (unfold newest; destruct (s_last s); [exact E|]; rewrite E; reflexivity).
      destruct (_ || _) eqn:C.
      * eapply PStore; try reflexivity; try assumption.
      * eapply PKeep; try reflexivity; try assumption. lia.
    + destruct (s_last s) eqn:E1; [discriminate E|]. apply PNone; try reflexivity; try assumption.
  - apply PElse; auto.
Qed.

Lemma last_time_app l : forall d k, last_time d (l ++ k) = last_time (last_time d l) k.
Proof. induction l as [|(e & [b|]) l IH]; intros d k; cbn [last_time app]; auto. Qed.
Lemma last_time_in l : forall d, last_time d l = d \/ exists e b, In (e, Some b) l /\ last_time d l = Some (entry_time e).
Proof.
  induction l as [|(e & [b|]) l IH]; intros d; cbn [last_time]; [now left| |].
  - right. destruct (IH (Some (entry_time e))) as [->|(f & c & Hf & ->)]; [exists e, b|exists f, c]; split; auto; [now left|now right].
  - destruct (IH d) as [->|(f & c & Hf & ->)]; [now left|right]. exists f, c. split; [now right|reflexivity].
Qed.

Definition handed (s : st) (t : Z) : Prop := exists e b, In (e, Some b) (s_read s) /\ t = entry_time e.
Record Pos (db0 : option Z) (s : st) : Prop := {
  p_new : newest s = last_time db0 (s_read s);
  p_db : s_db s = db0 \/ exists t, s_db s = Some t /\ handed s t;
  p_pend : forall t, s_pend s = Some t -> handed s t;
  p_last : forall t, s_last s = Some t -> handed s t
}.
Lemma handed_mono s s' t new : s_read s' = s_read s ++ new -> handed s t -> handed s' t.
Proof. intros E (e & b & H & ->). exists e, b. split; [rewrite E; apply in_app_iff; now left|reflexivity]. Qed.
Lemma handed_eq s s' t : s_read s' = s_read s -> handed s t -> handed s' t.
Proof. intros E (e & b & H & ->). exists e, b. split; [rewrite E; exact H|reflexivity]. Qed.
Lemma pos_same db0 s s' : Pos db0 s -> s_read s' = s_read s -> s_last s' = s_last s -> s_pend s' = s_pend s -> s_db s' = s_db s -> Pos db0 s'.
Proof.
  intros [A B C D] E1 E2 E3 E4. constructor.
  - unfold newest. rewrite E1, E2, E3, E4. exact A.
  - rewrite E4. destruct B as [B|(t & B & H)]; [now left|right; exists t; split; [exact B|apply (handed_eq s s' t E1 H)]].
  - rewrite E3. intros t Ht. apply (handed_eq s s' t E1), C, Ht.
  - rewrite E2. intros t Ht. apply (handed_eq s s' t E1), D, Ht.
Qed.
Lemma pos_run db0 s w err bad : Pos db0 s -> Pos db0 (thread w err bad s).
Proof.
  intros P0. pose proof P0 as [H1 H2 H3 H4]. set (s' := thread w err bad s).
  assert (forall t, newest s = Some t -> (s_last s <> None \/ s_pend s <> None) -> handed s t) as HN.
  { intros t Ht Hn. unfold newest in Ht. destruct (s_last s) eqn:E1; [apply H4, Ht|]. destruct (s_pend s) eqn:E2; [apply H3; exact Ht|]. destruct Hn as [Hn|Hn]; now destruct Hn. }
  destruct (thread_pos w err bad s) as [e b P B R L Pe D U _ _|e P B R L Pe D U _|p P D N R L Pe Db U _|p P D N R L Pe Db U _ _|P D L0 P1 R L Pe Db U _|p P D P1 R L Pe Db U _|P D P1 R L Pe Db U _|R L Pe Db U _ _];
    fold s' in R, L, Pe, U.
  - fold s' in D. constructor.
    + unfold newest. rewrite L, R, last_time_app. reflexivity.
    + rewrite D. destruct H2 as [->|(t & -> & H)]; [now left|right; exists t; split; [reflexivity|apply (handed_mono s s' t _ R H)]].
    + rewrite Pe. intros t Ht. apply (handed_mono s s' t _ R), H3, Ht.
    + rewrite L. intros t Ht. injection Ht as <-. exists e, b. split; [rewrite R; apply in_app_iff; right; now left|reflexivity].
  - fold s' in D. constructor.
    + unfold newest. rewrite L, Pe, D, R, last_time_app. exact H1.
    + rewrite D. destruct H2 as [->|(t & -> & H)]; [now left|right; exists t; split; [reflexivity|apply (handed_mono s s' t _ R H)]].
    + rewrite Pe. intros t Ht. apply (handed_mono s s' t _ R), H3, Ht.
    + rewrite L. intros t Ht. apply (handed_mono s s' t _ R), H4, Ht.
  - fold s' in Db. constructor.
    + unfold newest. rewrite L, Pe, Db, R, <- H1. symmetry. exact N.
    + rewrite Db. destruct (s_last s) eqn:E1; [right; exists p; split; [reflexivity|apply (handed_eq s s' p R), HN; [exact N|left; congruence]]|].
      destruct (s_pend s) eqn:E2; [right; exists p; split; [reflexivity|apply (handed_eq s s' p R), HN; [exact N|right; congruence]]|].
      unfold newest in N. rewrite E1, E2 in N. rewrite <- N. destruct H2 as [H2|(t & H2 & H)]; [now left|right]. exists t. split; [exact H2|apply (handed_eq s s' t R H)].
    + rewrite Pe. discriminate.
    + rewrite L. discriminate.
  - fold s' in Db. constructor.
    + unfold newest. rewrite L, Pe, R, <- H1. symmetry. exact N.
    + rewrite Db. destruct H2 as [->|(t & -> & H)]; [now left|right; exists t; split; [reflexivity|apply (handed_eq s s' t R H)]].
    + rewrite Pe. intros t Ht. injection Ht as <-. apply (handed_eq s s' p R). destruct (s_last s) eqn:E1; [apply HN; [exact N|left; congruence]|].
      destruct (s_pend s) eqn:E2; [apply HN; [exact N|right; congruence]|]. exfalso.
      revert Pe. unfold s', Journal_Model.thread. rewrite P. unfold end_batch. rewrite D. cbv zeta. rewrite E1, E2. cbn [set_pc s_pend]. rewrite E2. discriminate.
    + rewrite L. discriminate.
  - fold s' in Db. apply (pos_same db0 s s' P0 R); congruence.
  - fold s' in Db. constructor.
    + unfold newest. rewrite L, Pe, Db, R, <- H1. unfold newest. rewrite P1. reflexivity.
    + rewrite Db. right. exists p. split; [reflexivity|]. apply (handed_eq s s' p R), H3, P1.
    + rewrite Pe. discriminate.
    + rewrite L. intros t Ht. apply (handed_eq s s' t R), H4, Ht.
  - fold s' in Db. apply (pos_same db0 s s' P0 R); congruence.
  - fold s' in Db. apply (pos_same db0 s s' P0 R); assumption.
Qed.
Lemma pos_step db0 s o : Pos db0 s -> Pos db0 (step s o).
Proof.
  intros P0. destruct (is_run o) eqn:R.
  - destruct o; try discriminate R. apply pos_run, P0.
  - destruct (env_rest s o R) as (_ & _ & _ & _ & _ & _ & _ & E1 & E2 & _ & E3 & _ & E4). apply (pos_same db0 s _ P0); assumption.
Qed.
Lemma pos_all db0 os : forall s, Pos db0 s -> Pos db0 (run s os).
Proof. induction os as [|o os IH]; intros s P; [exact P|]. cbn [Journal_Model.run fold_left]. apply IH, pos_step, P. Qed.
Lemma pos_fresh j seq now ms r db : Pos db (fresh j seq now ms r db).
Proof. constructor; cbn; try reflexivity; try (now left); discriminate. Qed.

Lemma thread_pc w err bad s : let s' := thread w err bad s in
  match s_pc s with
  | PCheck => exists x, s_pc s' = PSeek x
  | PSeek _ => s_pc s' = PWait
  | PWait => s_pc s' = PWait \/ s_pc s' = PRead \/ s_pc s' = PDone
  | PRead => s_pc s' = PRead \/ s_pc s' = PEnd \/ (s_pc s' = PWait /\ bad = true)
  | PEnd => s_pc s' = PWait
  | PDone => s_pc s' = PDone
  end.
Proof.
  cbv zeta. unfold Journal_Model.thread. destruct (s_pc s) eqn:P.
  - unfold check_last. destruct (get_previous _ _ _) as ([e|], l); eexists; reflexivity.
  - destruct last; reflexivity.
  - destruct (negb (s_active s)); [auto|]. cbv zeta. match goal with |- context [if s_idle ?x then _ else _] => destruct (s_idle x) end; auto.
  - destruct (negb (s_active s)); [auto|]. destruct (if err then _ else _) as ([e|], l); [|auto]. cbv zeta. destruct bad.
    + unfold common_error. destruct (100 <=? _); auto.
    + destruct (100 <=? _); auto.
  - reflexivity.
  - exact P.
Qed.
(** without bad entries nothing waits at the end *)
Definition clean (s : st) : Prop := has_db = true ->
  match s_pc s with PCheck | PSeek _ | PWait => s_last s = None | PDone => s_last s = None /\ s_pend s = None | _ => True end.
Lemma clean_step s o : clean s -> is_bad o = false -> clean (step s o).
Proof.
  intros C B D. specialize (C D). destruct (is_run o) eqn:R.
  - destruct o; try discriminate R. cbn [is_bad] in B. subst bad. cbn [Journal_Model.step]. set (s' := thread w err false s).
    destruct (thread_pos w err false s) as [e b P B R' L Pe D' U N1 N2|e P B R' L Pe D' U N1|p P D' N R' L Pe Db U Pc|p P D' N R' L Pe Db U Lt Pc|P D' L0 P1 R' L Pe Db U Pc|p P D' P1 R' L Pe Db U Pc|P D' P1 R' L Pe Db U Pc|R' L Pe Db U N1 N2].
    + fold s' in N1, N2. pose proof (thread_pc w err false s) as T. cbv zeta in T. fold s' in T. rewrite P in T.
      destruct T as [-> | [-> | (_ & T)]]; [exact I|exact I|discriminate T].
    + discriminate B.
    + fold s' in Pc, L. rewrite Pc. exact L.
    + fold s' in Pc, L. rewrite Pc. exact L.
    + fold s' in Pc, L. rewrite Pc. exact L.
    + fold s' in Pc, L, Pe. rewrite Pc. rewrite P in C. split; [now rewrite L|exact Pe].
    + fold s' in Pc, L, Pe. rewrite Pc. rewrite P in C. split; [now rewrite L|exact Pe].
    + fold s' in N1, N2, L, Pe. pose proof (thread_pc w err false s) as T. cbv zeta in T. fold s' in T. destruct (s_pc s) eqn:P.
      * destruct T as (x & ->). now rewrite L.
      * rewrite T. now rewrite L.
      * destruct T as [T|[T|T]]; rewrite T; [now rewrite L|exact I|]. destruct (N2 T) as [Q|Q]; congruence.
      * destruct T as [T|[T|(_ & T)]]; [rewrite T; exact I|rewrite T; exact I|discriminate T].
      * destruct (N1 T) as [Q|[(x & Q)|Q]]; congruence.
      * rewrite T, L, Pe. exact C.
  - destruct (env_rest s o R) as (_ & _ & _ & _ & _ & _ & _ & E1 & E2 & _ & E3 & E5 & E4). rewrite E5, E1, E2. exact C.
Qed.
Lemma clean_run os : forall s, clean s -> (forall o, In o os -> is_bad o = false) -> clean (run s os).
Proof.
  induction os as [|o os IH]; intros s C B; [exact C|]. cbn [Journal_Model.run fold_left]. apply IH; [|intros x Hx; apply B; now right].
  apply clean_step; [exact C|]. apply B. now left.
Qed.

(** ** When the position is stored *)
Definition Upd (s0 : st) (os : list op) : Prop :=
  s_upd (run s0 os) = s_upd s0 \/
  exists os1 o os2, os = os1 ++ o :: os2 /\ s_pc (run s0 os1) = PEnd /\ s_upd (run s0 os) = s_now (run s0 os1) + 10 * second /\
    s_db (run s0 (os1 ++ [o])) = newest (run s0 os1).
Lemma run_app s a b : run s (a ++ b) = run (run s a) b.
Proof. unfold Journal_Model.run. apply fold_left_app. Qed.
Lemma upd_all s0 os : Upd s0 os.
Proof.
  induction os as [|o os IH] using rev_ind; [now left|]. unfold Upd in *. rewrite !run_app. cbn [Journal_Model.run fold_left].
  assert (s_upd (step (run s0 os) o) = s_upd (run s0 os) \/
    (s_pc (run s0 os) = PEnd /\ s_upd (step (run s0 os) o) = s_now (run s0 os) + 10 * second /\ s_db (step (run s0 os) o) = newest (run s0 os))) as [E|(E1 & E2 & E3)].
  { destruct (is_run o) eqn:R.
    - destruct o; try discriminate R. cbn [Journal_Model.step]. destruct (thread_pos w err bad (run s0 os)) as [e b P B R' L Pe D' U N1 N2|e P B R' L Pe D' U N1|p P D' N R' L Pe Db U Pc|p P D' N R' L Pe Db U Lt Pc|P D' L0 P1 R' L Pe Db U Pc|p P D' P1 R' L Pe Db U Pc|P D' P1 R' L Pe Db U Pc|R' L Pe Db U N1 N2]; auto.
      right. rewrite Db, N. auto.
    - destruct (env_rest (run s0 os) o R) as (_ & _ & _ & _ & _ & _ & _ & _ & _ & E & _). now left. }
  - change (fold_left (Journal_Model.step valid has_db findtime) os s0) with (run s0 os). rewrite E. destruct IH as [IH|(os1 & o1 & os2 & -> & Q1 & Q2 & Q3)]; [now left|right].
    exists os1, o1, (os2 ++ [o]). split; [rewrite <- app_assoc; reflexivity|]. split; [exact Q1|]. split; [exact Q2|exact Q3].
  - right. exists os, o, []. split; [reflexivity|]. split; [exact E1|]. split; [exact E2|]. rewrite run_app. exact E3.
Qed.
Lemma end_stored w err bad s : has_db = true -> s_pc s = PEnd -> s_upd s <= s_now s -> s_db (thread w err bad s) = newest s.
Proof.
  intros D P Le. destruct (thread_pos w err bad s) as [e b P0 B R' L Pe D' U N1 N2|e P0 B R' L Pe D' U N1|p P0 D' N R' L Pe Db U Pc|p P0 D' N R' L Pe Db U Lt Pc|P0 D' L0 P1 R' L Pe Db U Pc|p P0 D' P1 R' L Pe Db U Pc|P0 D' P1 R' L Pe Db U Pc|R' L Pe Db U N1 N2]; try congruence.
  - lia.
  - rewrite Db. unfold newest. rewrite L0, P1. reflexivity.
  - exfalso. pose proof (thread_pc w err bad s) as T. cbv zeta in T. rewrite P in T. destruct (N1 T) as [Q|[(x & Q)|Q]]; congruence.
Qed.

(** ** The start *)
Lemma start_unread w err bad s x : s_pc s = PSeek x -> journal_ok s ->
  unread (thread w err bad s) =
  match x with
  | Some _ => filter (fun e => sel s e && (Z.max (if has_db then match s_db s with Some p => p | None => 0 end else 0) (s_now s - findtime * second) <? e_real e)) (s_journal s)
  | None => []
  end.
Proof.
  intros P (O & Q). unfold Journal_Model.thread. rewrite P. rewrite unread_later. destruct x; unfold seek_start, sel; cbn [set_pc set_loc set_mode s_reader s_loc s_journal]; rewrite (seek_later _ _ _ O); [reflexivity|].
  apply filter_none. intros e He. specialize (Q e He). assert (s_now s <? e_real e = false) as -> by lia. apply andb_false_r.
Qed.
Lemma start_looping w err bad s x : s_pc s = PSeek x -> looping (thread w err bad s).
Proof. intros P. unfold looping. pose proof (thread_pc w err bad s) as T. cbv zeta in T. rewrite P in T. rewrite T. exact I. Qed.
Lemma start_env w err bad s x : s_pc s = PSeek x -> same_env s (thread w err bad s) /\ s_read (thread w err bad s) = s_read s /\ s_db (thread w err bad s) = s_db s.
Proof. intros P. unfold Journal_Model.thread. rewrite P. destruct x; repeat split. Qed.
Lemma check_env w err bad s : s_pc s = PCheck -> ordered (s_journal s) -> same_env s (thread w err bad s) /\ s_read (thread w err bad s) = s_read s /\ s_db (thread w err bad s) = s_db s /\
  exists x, s_pc (thread w err bad s) = PSeek x /\ match x with
    | Some e => In e (s_journal s) /\ sel s e = true /\ forall f, In f (s_journal s) -> sel s f = true -> e_key f <= e_key e
    | None => forall f, In f (s_journal s) -> sel s f = false
    end.
Proof.
  intros P O. unfold Journal_Model.thread. rewrite P. unfold check_last. destruct (get_previous (selects (s_reader s)) (s_journal s) LTail) as (x & l) eqn:G.
  split; [destruct x; repeat split|]. split; [reflexivity|]. split; [reflexivity|]. exists x. split; [destruct x; reflexivity|]. destruct x as [e|].
  - destruct (get_previous_some _ _ _ _ _ O G) as (_ & He & Se & _ & M). split; [exact He|]. split; [exact Se|]. intros f Hf Sf. apply (M f Hf Sf). reflexivity.
  - destruct (get_previous_none _ _ _ _ G) as (_ & N). intros f Hf. destruct (selects (s_reader s) f) eqn:Sf; [|exact Sf]. specialize (N f Hf Sf). discriminate N.
Qed.
Lemma start_placed w err bad s x : s_pc s = PSeek x -> journal_ok s -> let s' := thread w err bad s in
  (0 <= findtime -> (if has_db then match s_db s with Some p => p <= s_now s | None => 0 <= s_now s end else 0 <= s_now s) -> loc_ok s') /\
  (0 < findtime -> x <> None -> (if has_db then match s_db s with Some p => p < s_now s | None => 0 < s_now s end else 0 < s_now s) -> placed s').
Proof.
  intros P (O & Q) s'. destruct (start_env w err bad s x P) as ((E1 & E2 & E3 & E4 & _) & _). fold s' in E1, E2, E3, E4.
  assert (s_loc s' = snd (get_previous (sel s) (s_journal s) (LSeek (match x with Some _ => Z.max (if has_db then match s_db s with Some p => p | None => 0 end else 0) (s_now s - findtime * second) | None => s_now s end)))) as El
    by (unfold s', Journal_Model.thread; rewrite P; destruct x; reflexivity).
  set (t := match x with Some _ => _ | None => s_now s end) in El. 
  split.
  - intros F Hp. assert (t <= s_now s) as Ht by (unfold t; destruct x; [|lia]; destruct has_db; [destruct (s_db s)|]; unfold second; lia).
    unfold loc_ok. rewrite El, E2, E3. destruct (get_previous (sel s) (s_journal s) (LSeek t)) as ([p|], l) eqn:G; cbn [snd].
    + destruct (get_previous_some _ _ _ _ _ O G) as (-> & Hq & _). apply Q, Hq.
    + destruct (get_previous_none _ _ _ _ G) as (-> & _). exact Ht.
  - intros F Nx Hp. assert (t < s_now s) as Ht by (unfold t; destruct x; [|congruence]; destruct has_db; [destruct (s_db s)|]; unfold second; lia).
    assert (sel s' = sel s) as Es by (unfold sel; now rewrite E4).
    unfold placed. rewrite El, E1, E3, Es. destruct (get_previous (sel s) (s_journal s) (LSeek t)) as ([p|], l) eqn:G; cbn [snd].
    + destruct (get_previous_some _ _ _ _ _ O G) as (-> & Hq & Sp & _). exists p. auto.
    + destruct (get_previous_none _ _ _ _ G) as (-> & N). split; [exact Ht|]. intros e He Se. specialize (N e He Se). cbn [before] in N. lia.
Qed.

(** ** The operation mode *)
Lemma switch_mode_mono e s : s_inop s = true -> s_inop (switch_mode e s) = true.
Proof. intros H. unfold switch_mode. rewrite H. exact H. Qed.
Lemma thread_mono w err bad s : looping s -> s_inop s = true -> s_inop (thread w err bad s) = true.
Proof.
  intros L H. unfold looping in L. unfold Journal_Model.thread. destruct (s_pc s) eqn:P; try contradiction.
  - destruct (negb (s_active s)).
    + unfold finish. destruct has_db; [destruct (s_pend s)|]; exact H.
    + cbv zeta. match goal with |- context [if s_idle ?x then _ else _] => assert (s_inop x = true) as K; [|destruct (s_idle x); exact K] end.
      match goal with |- context [match ?wc with INVALIDATE => _ | _ => _ end] => destruct wc end; try exact H.
      match goal with |- context [if ?b then _ else _] => destruct b end; [|exact H]. unfold back_and_forth. destruct (get_previous _ _ _) as ([e|], l); exact H.
  - destruct (negb (s_active s)); [exact H|]. destruct (if err then _ else _) as ([e|], l); [|reflexivity]. cbv zeta. destruct bad.
    + unfold common_error. destruct (100 <=? _); exact H.
    + pose proof (switch_mode_mono e (set_loc l s) H) as K. destruct (100 <=? _); exact K.
  - unfold end_batch. destruct has_db; [|exact H]. cbv zeta. destruct (match s_last s with Some t => _ | None => _ end); [destruct (_ || _)|]; exact H.
  - exact H.
Qed.

(** entries of before *)
Record Backlog (s0 : st) (K t0 c : Z) (s : st) (new : list (entry * option bool)) : Prop := {
  b_read : s_read s = s_read s0 ++ new;
  b_old : forall f, In f (s_journal s) -> e_key f <= K -> In f (s_journal s0);
  b_seq : K < s_seq s;
  b_now : t0 <= s_now s;
  b_loc : loc_ok s;
  b_inop : s_inop s = true -> forall f, In f (unread s) -> K < e_key f;
  b_mark : (s_mark s = Mark1 t0 c) \/ (forall f, In f (unread s) -> K < e_key f);
  b_new : forall f, In (f, Some true) new -> K < e_key f
}.
Lemma backlog_step s0 K t0 c s new o : K <= c -> (forall f, In f (s_journal s0) -> e_key f <= K -> entry_time f < t0 - second) ->
  Backlog s0 K t0 c s new -> looping s -> journal_ok s -> changes_matches o = false -> errs o = false -> exists new', Backlog s0 K t0 c (step s o) new'.
Proof.
  intros Kc Old [Hr Ho Hq Hn Hl Hi Hm Hnew] L J Cm Er.
  destruct (step_env valid has_db findtime s o L J Hl Cm) as (_ & _ & Hl' & Erd).
  destruct o; try discriminate Cm.
  - exists new. assert (forall f, In f (unread (step s (OAppend src terms))) -> In f (unread s) \/ K < e_key f) as U.
    { intros f Hf. apply unread_in in Hf. cbn [Journal_Model.step set_env s_journal] in Hf. destruct Hf as (Hj & Sf & Af). apply in_app_iff in Hj.
      destruct Hj as [Hj|[<-|[]]]; [left; apply unread_in; auto|right; exact Hq]. }
    constructor; try assumption; cbn [Journal_Model.step set_env s_journal s_seq s_now s_inop s_mark].
    + intros f Hf Kf. apply in_app_iff in Hf. destruct Hf as [Hf|[<-|[]]]; [auto|]. cbn [e_key] in Kf. lia.
    + lia.
    + intros Io f Hf. destruct (U f Hf) as [Q|Q]; [exact (Hi Io f Q)|exact Q].
    + destruct Hm as [Hm|Hm]; [now left|right]. intros f Hf. destruct (U f Hf) as [Q|Q]; [exact (Hm f Q)|exact Q].
  - exists new. assert (forall f, In f (unread (step s (ORemove gone))) -> In f (unread s)) as U.
    { intros f Hf. apply unread_in in Hf. cbn [Journal_Model.step set_env s_journal] in Hf. destruct Hf as (Hj & Sf). apply filter_In in Hj. apply unread_in. split; [apply Hj|exact Sf]. }
    constructor; try assumption; cbn [Journal_Model.step set_env s_journal s_seq s_now s_inop s_mark].
    + intros f Hf Kf. apply filter_In in Hf. apply Ho; [apply Hf|exact Kf].
    + intros Io f Hf. exact (Hi Io f (U f Hf)).
    + destruct Hm as [Hm|Hm]; [now left|right]. intros f Hf. exact (Hm f (U f Hf)).
  - exists new. constructor; try assumption. cbn [Journal_Model.step set_env s_now]. lia.
  - exists new. constructor; assumption.
  - exists new. constructor; assumption.
  - cbn [errs] in Er. subst err. cbn [Journal_Model.step] in *.
    destruct (thread_step has_db findtime w false bad s L (j_order s J)) as ((E1 & E2 & E3 & E4 & E5 & E6) & L' & T).
    assert (sel (thread w false bad s) = sel s) as Es by (unfold sel; now rewrite E4).
    assert ((s_inop (thread w false bad s) = s_inop s /\ s_mark (thread w false bad s) = s_mark s /\ (forall e b, s_read (thread w false bad s) <> s_read s ++ [(e, Some b)])) \/
      (unread s = [] /\ s_read (thread w false bad s) = s_read s /\ s_loc (thread w false bad s) = s_loc s) \/
      (exists e rest, unread s = e :: rest /\ s_read (thread w false bad s) = s_read s ++ [(e, Some (s_inop (switch_mode e s)))] /\
         s_inop (thread w false bad s) = s_inop (switch_mode e s) /\ s_mark (thread w false bad s) = s_mark (switch_mode e s) /\ s_loc (thread w false bad s) = LAt (e_key e))) as C.
    { assert (forall e b, s_read s <> s_read s ++ [(e, Some b)]) as NR.
      { intros e b Q. apply (f_equal (@length _)) in Q. rewrite app_length in Q. cbn in Q. lia. }
      unfold Journal_Model.thread. destruct (s_pc s) eqn:P; unfold looping in L; rewrite P in L; try contradiction.
      - left. destruct (negb (s_active s)).
        + unfold finish. destruct has_db; [destruct (s_pend s)|]; (split; [reflexivity|split; [reflexivity|exact NR]]).
        + cbv zeta. match goal with |- context [if s_idle ?x then _ else _] => assert (s_inop x = s_inop s /\ s_mark x = s_mark s /\ s_read x = s_read s) as (K1 & K2 & K3);
            [|destruct (s_idle x); (split; [exact K1|split; [exact K2|]]); cbn [set_pc s_read]; rewrite K3; exact NR] end.
          match goal with |- context [match ?wc with INVALIDATE => _ | _ => _ end] => destruct wc end; try solve [repeat split].
          match goal with |- context [if ?b then _ else _] => destruct b end; [|repeat split]. unfold back_and_forth. destruct (get_previous _ _ _) as ([e|], l); repeat split.
      - destruct (negb (s_active s)); [left; split; [reflexivity|split; [reflexivity|exact NR]]|].
        destruct (get_next (selects (s_reader s)) (s_journal s) (s_loc s)) as ([e|], l) eqn:G.
        + destruct (get_next_some _ _ _ _ _ (j_order s J) G) as (-> & He & Se & Ae & U). cbv zeta. destruct bad.
          * left. unfold common_error. destruct (100 <=? _); (split; [reflexivity|split; [reflexivity|]]); cbn; intros f b Q; apply app_inv_head in Q; discriminate Q.
          * right. right. exists e, (later (sel s) (LAt (e_key e)) (s_journal s)). split; [exact U|].
            assert (switch_mode e (set_loc (LAt (e_key e)) s) = set_mode (s_inop (switch_mode e s)) (s_mark (switch_mode e s)) (set_loc (LAt (e_key e)) s)) as Q.
            { unfold switch_mode. cbn [set_loc s_inop s_now s_mark]. destruct (s_inop s) eqn:Ei; [unfold set_mode, set_loc; cbn; rewrite Ei; reflexivity|].
              destruct (_ <=? _); [reflexivity|]. destruct (s_mark s) eqn:Em; match goal with |- context [if ?x then _ else _] => destruct x end; try reflexivity;
                unfold set_mode, set_loc; cbn; rewrite Ei, Em; reflexivity. }
            rewrite Q. destruct (100 <=? _); repeat split.
        + destruct (get_next_none _ _ _ _ G) as (_ & U). right. left. split; [exact U|split; reflexivity].
      - left. unfold end_batch. destruct has_db; [|split; [reflexivity|split; [reflexivity|exact NR]]].
        cbv zeta. destruct (match s_last s with Some t => _ | None => _ end); [destruct (_ || _)|]; (split; [reflexivity|split; [reflexivity|exact NR]]).
      - left. split; [reflexivity|split; [reflexivity|exact NR]]. }
    assert (forall f, In f (unread (thread w false bad s)) -> In f (unread s)) as Sub.
    { intros f Hf. destruct T as [e x rest U He Sx El Eu Er' Pc|El Er' W|El Er'].
      - rewrite Eu in Hf. rewrite U. now right.
      - rewrite unread_later in *. rewrite El, Es, E1, back_and_forth_loc in Hf. apply (bf_subset _ _ _ _ (j_order s J)) in Hf; [exact Hf|]. unfold loc_ok in Hl. intros Q. now rewrite Q in Hl.
      - rewrite unread_later in *. rewrite El, Es, E1 in Hf. exact Hf. }
    assert (exists k, s_read (thread w false bad s) = s_read s ++ k) as (k & Ek) by (destruct T as [e x rest U He Sx El Eu Er' Pc|El Er' W|El Er']; rewrite Er'; [eauto|exists []; now rewrite app_nil_r|exists []; now rewrite app_nil_r]).
    destruct C as [(C1 & C2 & C3)|[(C1 & C2 & C3)|(e & rest & U & Rd & I1 & M1 & Lc)]].
    + exists (new ++ k). constructor; rewrite ?E1, ?E2, ?E3; try assumption.
      * rewrite Ek, Hr, app_assoc. reflexivity.
      * rewrite C1. intros Io f Hf. exact (Hi Io f (Sub f Hf)).
      * rewrite C2. destruct Hm as [Hm|Hm]; [now left|right]. intros f Hf. exact (Hm f (Sub f Hf)).
      * intros f Hf. apply in_app_iff in Hf. destruct Hf as [Hf|Hf]; [auto|]. exfalso.
        destruct T as [e x rest U He Sx El Eu Er' Pc|El Er' W|El Er']; rewrite Er' in Ek.
        -- apply app_inv_head in Ek. subst k. destruct Hf as [Hf|[]]. injection Hf as -> ->. exact (C3 f true Er').
        -- rewrite <- (app_nil_r (s_read s)) in Ek at 1. apply app_inv_head in Ek. subst k. destruct Hf.
        -- rewrite <- (app_nil_r (s_read s)) in Ek at 1. apply app_inv_head in Ek. subst k. destruct Hf.
    + assert (unread (thread w false bad s) = []) as Ue by (rewrite unread_later, C3, Es, E1; exact C1).
      exists new. constructor; rewrite ?E1, ?E2, ?E3, ?C2, ?Ue; try assumption; [intros _ f []|right; intros f []].
    + exists (new ++ [(e, Some (s_inop (switch_mode e s)))]).
      assert (In e (s_journal s)) as He by (assert (In e (unread s)) as X by (rewrite U; now left); apply unread_in in X; tauto).
      assert (forall f, In f (unread (thread w false bad s)) -> e_key e < e_key f) as Gt.
      { intros f Hf. apply unread_in in Hf. destruct Hf as (_ & _ & Hf). rewrite Lc in Hf. cbn [after] in Hf. lia. }
      constructor; rewrite ?E1, ?E2, ?E3; try assumption.
      * rewrite Rd, Hr, app_assoc. reflexivity.
      * intros Io f Hf. destruct (Z.leb_spec (e_key e) K) as [Le|Le]; [|specialize (Gt f Hf); lia].
        exfalso. rewrite I1 in Io. unfold switch_mode in Io. destruct (s_inop s) eqn:Ei.
        -- specialize (Hi eq_refl e). rewrite U in Hi. specialize (Hi (or_introl eq_refl)). lia.
        -- specialize (Old e (Ho e He Le) Le). assert (s_now s - second <=? entry_time e = false) as Q by lia. rewrite Q in Io.
           destruct Hm as [Hm|Hm]; [|specialize (Hm e); rewrite U in Hm; specialize (Hm (or_introl eq_refl)); lia].
           rewrite Hm in Io. destruct (_ || _) in Io; cbn in Io; congruence.
      * destruct (Z.leb_spec (e_key e) K) as [Le|Le]; [|right; intros f Hf; specialize (Gt f Hf); lia].
        destruct Hm as [Hm|Hm]; [|exfalso; specialize (Hm e); rewrite U in Hm; specialize (Hm (or_introl eq_refl)); lia].
        rewrite M1. unfold switch_mode. destruct (s_inop s) eqn:Ei; [now left|].
        specialize (Old e (Ho e He Le) Le). assert (s_now s - second <=? entry_time e = false) as -> by lia.
        rewrite Hm. destruct (e_key e =? c) eqn:Ec; cbn [orb].
        -- right. intros f Hf. specialize (Gt f Hf). lia.
        -- assert (t0 <? entry_time e = false) as -> by (unfold second in *; lia). left. exact Hm.
      * intros f Hf. apply in_app_iff in Hf. destruct Hf as [Hf|[Hf|[]]]; [auto|]. injection Hf as <- Io.
        destruct (Z.leb_spec (e_key e) K) as [Le|Le]; [|exact Le]. exfalso.
        unfold switch_mode in Io. destruct (s_inop s) eqn:Ei.
        -- specialize (Hi eq_refl e). rewrite U in Hi. specialize (Hi (or_introl eq_refl)). lia.
        -- specialize (Old e (Ho e He Le) Le). assert (s_now s - second <=? entry_time e = false) as Q by lia. rewrite Q in Io.
           destruct Hm as [Hm|Hm]; [|specialize (Hm e); rewrite U in Hm; specialize (Hm (or_introl eq_refl)); lia].
           rewrite Hm in Io. destruct (_ || _) in Io; cbn in Io; congruence.
Qed.
Lemma backlog_run os : forall s0 K t0 c s new, K <= c -> (forall f, In f (s_journal s0) -> e_key f <= K -> entry_time f < t0 - second) ->
  Backlog s0 K t0 c s new -> looping s -> journal_ok s -> (forall o, In o os -> changes_matches o = false /\ errs o = false) -> exists new', Backlog s0 K t0 c (run s os) new'.
Proof.
  induction os as [|o os IH]; intros s0 K t0 c s new Kc Old B L J Cm; [eauto|].
  destruct (Cm o (or_introl eq_refl)) as (C1 & C2).
  destruct (backlog_step s0 K t0 c s new o Kc Old B L J C1 C2) as (new1 & B1).
  destruct (step_env valid has_db findtime s o L J (b_loc _ _ _ _ _ _ B) C1) as (L1 & J1 & _).
  cbn [Journal_Model.run fold_left]. apply (IH s0 K t0 c (step s o) new1 Kc Old B1 L1 J1). intros x Hx. apply Cm. now right.
Qed.
End T.
