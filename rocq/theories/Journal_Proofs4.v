From Coq Require Import ZArith List Bool Lia ZifyBool.
From Verif Require Import Base Text Journal_Model Journal_Spec Journal_Proofs Journal_Proofs2 Journal_Proofs3.
Import ListNotations.
Local Open Scope Z_scope.

Section T.
Variables (valid : text -> bool) (has_db : bool) (findtime : Z).
Notation thread := (thread has_db findtime).
Notation step := (step valid has_db findtime).
Notation run := (run valid has_db findtime).

(** ** The matches, whatever happens *)
Lemma thread_matches w err bad s : s_matches (thread w err bad s) = s_matches s /\ s_reader (thread w err bad s) = s_reader s.
Proof.
  unfold Journal_Model.thread. destruct (s_pc s).
  - unfold check_last. destruct (get_previous _ _ _) as ([e|], l); split; reflexivity.
  - destruct last; split; reflexivity.
  - destruct (negb (s_active s)).
    + unfold finish. destruct has_db; [destruct (s_pend s)|]; split; reflexivity.
    + cbv zeta. match goal with |- context [if s_idle ?x then _ else _] => assert (s_matches x = s_matches s /\ s_reader x = s_reader s) as (K1 & K2); [|destruct (s_idle x); split; assumption] end.
      match goal with |- context [match ?wc with INVALIDATE => _ | _ => _ end] => destruct wc end; try solve [split; reflexivity].
      match goal with |- context [if ?b then _ else _] => destruct b end; [|split; reflexivity]. unfold back_and_forth. destruct (get_previous _ _ _) as ([e|], l); split; reflexivity.
  - destruct (negb (s_active s)); [split; reflexivity|]. destruct (if err then _ else _) as ([e|], l); [|split; reflexivity]. cbv zeta. destruct bad.
    + unfold common_error. destruct (100 <=? _); split; reflexivity.
    + destruct (switch_mode_eq e (set_loc l s)) as (bo & m & ->). destruct (100 <=? _); split; reflexivity.
  - unfold end_batch. destruct has_db; [|split; reflexivity]. cbv zeta. destruct (match s_last s with Some t => _ | None => _ end); [destruct (_ || _)|]; split; reflexivity.
  - split; reflexivity.
Qed.
Lemma mok_step s o : Mok valid (s_matches s) (s_reader s) -> Mok valid (s_matches (step s o)) (s_reader (step s o)).
Proof.
  intros M. destruct o; cbn [Journal_Model.step]; try exact M.
  - destruct (add_match_spec valid m _ _ M) as [(_ & r' & -> & M')|(_ & r' & -> & M')]; exact M'.
  - pose proof (del_match_spec valid m _ _ M) as D. destruct m as [g|].
    + destruct D as [(_ & r' & -> & M')|(_ & ->)]; [exact M'|exact M].
    + destruct D as (r' & -> & M'). exact M'.
  - destruct (thread_matches w err bad s) as (-> & ->). exact M.
Qed.
Lemma mok_run os : forall s, Mok valid (s_matches s) (s_reader s) -> Mok valid (s_matches (run s os)) (s_reader (run s os)).
Proof. induction os as [|o os IH]; intros s M; [exact M|]. cbn [Journal_Model.run fold_left]. apply IH, mok_step, M. Qed.

(** ** Between the steps of the thread *)
Lemma env_step s o : is_run o = false -> changes_matches o = false -> journal_ok s ->
  journal_ok (step s o) /\ s_reader (step s o) = s_reader s /\ s_seq s <= s_seq (step s o) /\ s_now s <= s_now (step s o) /\
  (forall e, In e (s_journal (step s o)) -> In e (s_journal s) \/ (s_seq s <= e_key e /\ s_now s <= e_real e)).
Proof.
  intros R C (O & Q). destruct o; try discriminate R; try discriminate C; cbn [Journal_Model.step set_env s_journal s_reader s_seq s_now];
    (split; [|split; [reflexivity|split; [try lia|split; [lia|]]]]); try (intros e He; now left).
  - constructor; cbn [set_env s_journal s_seq s_now].
    + apply ordered_snoc; [exact O|]. intros f Hf. cbn [e_key e_real]. apply Q, Hf.
    + intros f Hf. apply in_app_iff in Hf. destruct Hf as [Hf|[<-|[]]]; [specialize (Q f Hf); lia|cbn [e_key e_real]; lia].
  - intros e He. apply in_app_iff in He. destruct He as [He|[<-|[]]]; [now left|right; cbn [e_key e_real]; lia].
  - constructor; cbn [set_env s_journal s_seq s_now]; [apply ordered_filter, O|]. intros f Hf. apply filter_In in Hf. apply Q, Hf.
  - intros e He. apply filter_In in He. left. apply He.
  - constructor; cbn [set_env s_journal s_seq s_now]; [exact O|]. intros f Hf. specialize (Q f Hf). lia.
  - constructor; assumption.
  - constructor; assumption.
Qed.
Lemma env_run os : forall s, (forall o, In o os -> is_run o = false /\ changes_matches o = false) -> journal_ok s ->
  journal_ok (run s os) /\ s_reader (run s os) = s_reader s /\ s_seq s <= s_seq (run s os) /\ s_now s <= s_now (run s os) /\ s_pc (run s os) = s_pc s /\ s_db (run s os) = s_db s /\ s_read (run s os) = s_read s /\
  (forall e, In e (s_journal (run s os)) -> In e (s_journal s) \/ (s_seq s <= e_key e /\ s_now s <= e_real e)).
Proof.
  induction os as [|o os IH]; intros s H J.
  - cbn. split; [exact J|]. repeat split; try lia. intros e He. now left.
  - destruct (H o (or_introl eq_refl)) as (R & C). destruct (env_step s o R C J) as (J1 & A1 & A2 & A3 & A4).
    destruct (env_rest valid has_db findtime s o R) as (_ & _ & _ & _ & _ & _ & _ & _ & _ & _ & D & P & Rd).
    change (run s (o :: os)) with (run (step s o) os). destruct (IH (step s o)) as (J2 & B1 & B2 & B3 & B4 & B5 & B6 & B7); [intros x Hx; apply H; now right|exact J1|].
    split; [exact J2|]. split; [congruence|]. split; [lia|]. split; [lia|]. split; [congruence|]. split; [congruence|]. split; [congruence|].
    intros e He. destruct (B7 e He) as [X|X]; [apply A4, X|right; lia].
Qed.

(** the time to start from *)
Definition from (s : st) : Z := Z.max (if has_db then match s_db s with Some p => p | None => 0 end else 0) (s_now s - findtime * second).
Lemma begin_spec s w1 e1 b1 env w2 e2 b2 : s_pc s = PCheck -> journal_ok s -> (forall o, In o env -> is_run o = false /\ changes_matches o = false) ->
  let s' := run s (ORun w1 e1 b1 :: env ++ [ORun w2 e2 b2]) in
  looping s' /\ journal_ok s' /\ s_reader s' = s_reader s /\ s_db s' = s_db s /\ s_read s' = s_read s /\ s_now s <= s_now s' /\ s_seq s <= s_seq s' /\
  (forall e, In e (s_journal s') -> In e (s_journal s) \/ (s_seq s <= e_key e /\ s_now s <= e_real e)) /\
  (forall x, In x (s_journal s) -> sel s x = true -> unread s' = filter (fun e => sel s e && (from s' <? e_real e)) (s_journal s')) /\
  ((forall x, In x (s_journal s) -> sel s x = false) -> unread s' = []) /\
  (0 <= findtime -> (if has_db then match s_db s with Some p => p <= s_now s' | None => 0 <= s_now s' end else 0 <= s_now s') -> loc_ok s') /\
  (forall x, In x (s_journal s) -> sel s x = true -> 0 < findtime -> (if has_db then match s_db s with Some p => p < s_now s' | None => 0 < s_now s' end else 0 < s_now s') -> placed s').
Proof.
  intros P J H s'. unfold s'. change (ORun w1 e1 b1 :: env ++ [ORun w2 e2 b2]) with ([ORun w1 e1 b1] ++ env ++ [ORun w2 e2 b2]). rewrite !run_app.
  destruct (check_env has_db findtime w1 e1 b1 s P (j_order s J)) as ((E1 & E2 & E3 & E4 & _ & _) & R1 & D1 & x & P1 & X).
  replace (run s [ORun w1 e1 b1]) with (thread w1 e1 b1 s) by reflexivity. set (s1 := thread w1 e1 b1 s) in *.
  assert (journal_ok s1) as J1 by (destruct J as (O & Q); constructor; rewrite E1, ?E2, ?E3; assumption).
  destruct (env_run env s1 H J1) as (J2 & B1 & B2 & B3 & B4 & B5 & B6 & B7). set (s2 := run s1 env) in *.
  replace (run s2 [ORun w2 e2 b2]) with (thread w2 e2 b2 s2) by reflexivity.
  assert (s_pc s2 = PSeek x) as P2 by congruence.
  destruct (start_env has_db findtime w2 e2 b2 s2 x P2) as ((F1 & F2 & F3 & F4 & _ & _) & R3 & D3).
  pose proof (start_looping has_db findtime w2 e2 b2 s2 x P2) as L3.
  pose proof (start_unread has_db findtime w2 e2 b2 s2 x P2 J2) as U3.
  pose proof (start_placed has_db findtime w2 e2 b2 s2 x P2 J2) as Pl. cbv zeta in Pl.
  set (s3 := thread w2 e2 b2 s2) in *.
  assert (sel s2 = sel s) as Es by (unfold sel; rewrite B1, E4; reflexivity).
  assert (s_db s2 = s_db s) as Ed by congruence.
  split; [exact L3|]. split; [destruct J2 as (O & Q); constructor; rewrite F1, ?F2, ?F3; assumption|].
  split; [congruence|]. split; [congruence|]. split; [congruence|]. split; [lia|]. split; [lia|].
  split; [intros e He; rewrite F1 in He; rewrite <- E1, <- E2, <- E3; apply B7, He|].
  split; [|split; [|split]].
  - intros y Hy Sy. destruct x as [l|]; [|rewrite (X y Hy) in Sy; discriminate Sy]. rewrite U3, F1, Es. unfold from. rewrite D3, F3. reflexivity.
  - intros Hn. destruct x as [l|]; [|exact U3]. destruct X as (Hl & Sl & _). rewrite (Hn l Hl) in Sl. discriminate Sl.
  - rewrite F3. rewrite Ed in Pl. apply Pl.
  - rewrite F3. rewrite Ed in Pl. intros y Hy Sy Ft. apply Pl; [exact Ft|]. intros ->. rewrite (X y Hy) in Sy. discriminate Sy.
Qed.

(** ** A restart *)
Lemma restart_spec (s0 s : st) new db0 : has_db = true -> Once s0 s new -> Pos db0 s -> clean has_db s -> s_pc s = PDone -> journal_ok s -> s_read s0 = [] ->
  (forall e, In e (s_journal s) -> sel s0 e = true -> after (s_loc s0) e = true -> In e (map fst new) \/ In e (unread s)) ->
  forall w1 e1 b1 env w2 e2 b2, (forall o, In o env -> is_run o = false /\ changes_matches o = false) ->
  let s2 := run (fresh (s_journal s) (s_seq s) (s_now s) (s_matches s) (s_reader s) (s_db s)) (ORun w1 e1 b1 :: env ++ [ORun w2 e2 b2]) in
  (exists x, In x (s_journal s) /\ sel s x = true) ->
  forall e, In e (s_journal s2) -> sel s2 e = true -> after (s_loc s0) e = true ->
  s_now s2 - findtime * second < e_real e -> 0 < e_real e -> (forall p, db0 = Some p -> p < e_real e) ->
  (forall h b, In (h, b) (s_read s) -> e_key h < e_key e -> entry_time h < e_real e) ->
  In e (map fst (s_read s)) \/ In e (unread s2).
Proof.
  intros D O P C Pd J R0 Com w1 e1 b1 env w2 e2 b2 He s2 (x & Hx & Sx) e Ie Se Ae Ft Z0 Hdb Hh.
  set (f := fresh (s_journal s) (s_seq s) (s_now s) (s_matches s) (s_reader s) (s_db s)) in *.
  assert (journal_ok f) as Jf by (destruct J as (A & B); constructor; assumption).
  destruct (begin_spec f w1 e1 b1 env w2 e2 b2 eq_refl Jf He) as (_ & _ & Er & Ed & _ & _ & _ & Hj & Hu & _ & _). fold s2 in Er, Ed, Hj, Hu.
  specialize (Hu x Hx Sx).
  assert (sel s2 = sel s) as Es by (unfold sel; rewrite Er; reflexivity).
  assert (sel s0 e = true) as S0 by (rewrite Es in Se; unfold sel in *; rewrite <- (o_reader s0 s new O); exact Se).
  assert (s_read s = new) as Rn by (rewrite (o_read s0 s new O), R0; reflexivity).
  assert ((forall h b, In (h, b) (s_read s) -> e_key h < e_key e) -> In e (unread s2)) as K.
  { intros Hk. rewrite Hu. apply filter_In. split; [exact Ie|]. rewrite Es in Se. change (sel f) with (sel s). rewrite Se. cbn [andb].
    assert (s_db s = last_time db0 (s_read s)) as Q.
    { pose proof (C D) as C'. rewrite Pd in C'. destruct C' as (C1 & C2). rewrite <- (p_new db0 s P). unfold newest. rewrite C1, C2. reflexivity. }
    unfold from. rewrite D, Ed. change (s_db f) with (s_db s). apply Z.ltb_lt.
    assert (match s_db s with Some p => p | None => 0 end < e_real e) as B; [|lia].
    rewrite Q. destruct (last_time_in (s_read s) db0) as [->|(h & b & Ih & ->)].
    - destruct db0 as [p|]; [apply Hdb; reflexivity|exact Z0].
    - apply (Hh h (Some b) Ih). apply (Hk h (Some b) Ih). }
  destruct (Hj e Ie) as [Q|Q].
  - destruct (Com e Q S0 Ae) as [Q1|Q1]; [left; rewrite Rn; exact Q1|right]. apply K. intros h b Ih. rewrite Rn in Ih. apply (o_lt s0 s new O h b e Ih Q1).
  - right. apply K. intros h b Ih. rewrite Rn in Ih. pose proof (o_seq s0 s new O h b Ih). change (s_seq f) with (s_seq s) in Q. lia.
Qed.

(** ** Errors *)
Lemma errors_step s o : 0 <= s_errors s < 100 -> 0 <= s_errors (step s o) < 100.
Proof.
  intros H. destruct (is_run o) eqn:R; [|destruct (env_rest valid has_db findtime s o R) as (_ & E & _); rewrite E; exact H].
  destruct o; try discriminate R. cbn [Journal_Model.step]. unfold Journal_Model.thread. destruct (s_pc s).
  - unfold check_last. destruct (get_previous _ _ _) as ([e|], l); exact H.
  - destruct last; exact H.
  - destruct (negb (s_active s)).
    + unfold finish. destruct has_db; [destruct (s_pend s)|]; exact H.
    + cbv zeta. match goal with |- context [if s_idle ?x then _ else _] => assert (s_errors x = s_errors s) as K; [|destruct (s_idle x); cbn [set_pc s_errors]; rewrite K; exact H] end.
      match goal with |- context [match ?wc with INVALIDATE => _ | _ => _ end] => destruct wc end; try reflexivity.
      match goal with |- context [if ?b then _ else _] => destruct b end; [|reflexivity]. unfold back_and_forth. destruct (get_previous _ _ _) as ([e|], l); reflexivity.
  - destruct (negb (s_active s)); [exact H|]. destruct (if err then _ else _) as ([e|], l); [|exact H]. cbv zeta. destruct bad.
    + unfold common_error. cbn [set_pc passed set_loc s_errors]. destruct (Z.leb_spec 100 (s_errors s + 1)); cbn [set_errors s_errors]; [|lia].
      pose proof (Z.div_lt (s_errors s + 1) 2 ltac:(lia) ltac:(lia)). pose proof (Z.div_pos (s_errors s + 1) 2 ltac:(lia) ltac:(lia)). 
      split; [lia|]. apply Z.div_lt_upper_bound; lia.
    + destruct (switch_mode_eq e (set_loc l s)) as (bo & m & ->).
      assert (0 <= s_errors s / 2 < 100) as Q by (split; [apply Z.div_pos; lia|apply Z.div_lt_upper_bound; lia]).
      destruct (100 <=? _); exact Q.
  - unfold end_batch. destruct has_db; [|exact H]. cbv zeta. destruct (match s_last s with Some t => _ | None => _ end); [destruct (_ || _)|]; exact H.
  - exact H.
Qed.
End T.

(** ** The line *)
Lemma escape_app a b : escape_newlines (a ++ b) = escape_newlines a ++ escape_newlines b.
Proof. induction a as [|c a IH]; [reflexivity|]. cbn [app escape_newlines]. destruct (Ascii.eqb c "010"%char); cbn [app]; rewrite IH; reflexivity. Qed.
Lemma escape_clean t : ~ In "010"%char (escape_newlines t).
Proof.
  induction t as [|c t IH]; cbn [escape_newlines]; [intros []|]. destruct (Ascii.eqb_spec c "010"%char).
  - intros [Q|[Q|Q]]; [discriminate Q|discriminate Q|auto].
  - intros [Q|Q]; auto.
Qed.
Lemma escape_id t : ~ In "010"%char t -> escape_newlines t = t.
Proof.
  induction t as [|c t IH]; intros H; [reflexivity|]. cbn [escape_newlines]. destruct (Ascii.eqb_spec c "010"%char) as [->|N]; [destruct H; now left|].
  rewrite IH; [reflexivity|]. intros Q. apply H. now right.
Qed.
Lemma join_snoc sep l m : join sep (l ++ [m]) = match l with [] => m | _ => join sep l ++ sep ++ m end.
Proof.
  induction l as [|a l IH]; [reflexivity|]. destruct l as [|b l].
  - reflexivity.
  - change ((a :: b :: l) ++ [m]) with (a :: (b :: l) ++ [m]). change (join sep (a :: (b :: l) ++ [m])) with (a ++ sep ++ join sep ((b :: l) ++ [m])).
    rewrite IH. change (join sep (a :: b :: l)) with (a ++ sep ++ join sep (b :: l)). rewrite <- !app_assoc. reflexivity.
Qed.
