(** The journal backend (filtersystemd.py): C86-C90. *)
From Coq Require Import ZArith List Bool Lia ZifyBool.
From Verif Require Import Base Text Journal_Model Journal_Spec Journal_Proofs Journal_Proofs2 Journal_Proofs3 Journal_Proofs4.
Import ListNotations.
Local Open Scope Z_scope.

(** ** C86: the matches of the journal *)
(** Whatever matches were added and deleted before, with or without errors, before or while the thread runs: the
    journal shows exactly the entries that the listed matches choose. *)
Theorem C86_selection : forall valid has_db findtime j seq now db os e,
  let s := run valid has_db findtime (fresh j seq now [] flush_matches db) os in
  sel s e = true <-> chosen (s_matches s) e.
Proof.
  intros valid has_db findtime j seq now db os e s. apply good_selects.
  assert (Mok valid (s_matches s) (s_reader s)) as (G & _); [|exact G].
  apply mok_run. split; [split; reflexivity|intros g []].
Qed.
(** Adding [m]: its alternatives (between plus signs) are listed behind the others, if the journal accepts all their
    terms; otherwise it is an error and neither the list nor the selection changes. *)
Theorem C86_add : forall valid has_db findtime j seq now db os m,
  let s := run valid has_db findtime (fresh j seq now [] flush_matches db) os in
  exists gs, with_plus gs = m /\ gs <> [] /\ (forall g, In g gs -> ~ In plus g) /\
  (forall gs', with_plus gs' = m -> gs' <> [] -> (forall g, In g gs' -> ~ In plus g) -> gs' = gs) /\
  ((forall t, In t m -> t = plus \/ valid t = true) ->
     exists r, add_match valid m (s_matches s) (s_reader s) = (true, (s_matches s ++ gs, r))) /\
  ((exists t, In t m /\ t <> plus /\ valid t = false) ->
     exists r, add_match valid m (s_matches s) (s_reader s) = (false, (s_matches s, r)) /\ forall e, selects r e = sel s e).
Proof.
  intros valid has_db findtime j seq now db os m s.
  assert (Mok valid (s_matches s) (s_reader s)) as M by (apply mok_run; split; [split; reflexivity|intros g []]).
  destruct (alternatives_spec m []) as (W & Np); [intros t []|]. change ([] ++ m) with m in W.
  exists (alternatives m []). split; [exact W|]. destruct (alternatives_app m []) as (g0 & gs0 & E0).
  split; [rewrite E0; discriminate|]. split; [exact Np|].
  assert (forall gs t, In t (with_plus gs) -> t = plus \/ exists g, In g gs /\ In t g) as A1.
  { induction gs as [|g gs IH]; intros t Ht; [destruct Ht|]. cbn [with_plus] in Ht. destruct gs as [|g' gs].
    - right. exists g. split; [now left|exact Ht].
    - apply in_app_iff in Ht. destruct Ht as [Ht|[<-|Ht]]; [right; exists g; split; [now left|exact Ht]|now left|].
      destruct (IH t Ht) as [->|(h & Hh & Q)]; [now left|right; exists h; split; [now right|exact Q]]. }
  assert (forall gs g t, In g gs -> In t g -> In t (with_plus gs)) as A2.
  { induction gs as [|g gs IH]; intros h t Hh Ht; [destruct Hh|]. cbn [with_plus]. destruct gs as [|g' gs].
    - destruct Hh as [<-|[]]. exact Ht.
    - apply in_app_iff. destruct Hh as [<-|Hh]; [now left|right; right]. exact (IH h t Hh Ht). }
  split; [|split].
  - intros gs' W' N' P'. rewrite <- W'. rewrite (alternatives_with_plus gs' N' P' []). destruct gs'; [congruence|reflexivity].
  - intros V. destruct (add_match_spec valid m _ _ M) as [(_ & r' & -> & _)|((g & t & Hg & Ht & Hv) & _)]; [eauto|]. exfalso.
    assert (In t m) as Im by (rewrite <- W; exact (A2 _ g t Hg Ht)).
    destruct (V t Im) as [->|Q]; [exact (Np g Hg Ht)|congruence].
  - intros (t & Im & Nt & Hv). destruct (add_match_spec valid m _ _ M) as [(V & _)|(_ & r' & -> & M')].
    + exfalso. rewrite <- W in Im. destruct (A1 _ t Im) as [Q|(g & Hg & Q)]; [rewrite W in Im; congruence|]. rewrite (V g Hg t Q) in Hv. discriminate Hv.
    + exists r'. split; [reflexivity|]. intros e. unfold sel. destruct M as (G & _). destruct M' as (G' & _).
      destruct (selects r' e) eqn:X; symmetry.
      * apply (good_selects _ _ e G). apply (good_selects _ _ e G'). exact X.
      * destruct (selects (s_reader s) e) eqn:Y; [|reflexivity]. apply (good_selects _ _ e G) in Y. apply (good_selects _ _ e G') in Y. congruence.
Qed.
(** Deleting: without an argument all; a listed match once; one that is not listed is an error and changes nothing. *)
Theorem C86_del : forall valid has_db findtime j seq now db os,
  let s := run valid has_db findtime (fresh j seq now [] flush_matches db) os in
  (exists r, del_match valid None (s_matches s) (s_reader s) = (true, ([], r))) /\
  (forall g, In g (s_matches s) -> exists a c r, s_matches s = a ++ g :: c /\ ~ In g a /\ del_match valid (Some g) (s_matches s) (s_reader s) = (true, (a ++ c, r))) /\
  (forall g, ~ In g (s_matches s) -> del_match valid (Some g) (s_matches s) (s_reader s) = (false, (s_matches s, s_reader s))).
Proof.
  intros valid has_db findtime j seq now db os s.
  assert (Mok valid (s_matches s) (s_reader s)) as M by (apply mok_run; split; [split; reflexivity|intros g []]).
  split; [destruct (del_match_spec valid None _ _ M) as (r & -> & _); eauto|]. split; intros g Hg; destruct (del_match_spec valid (Some g) _ _ M) as [(I & r & -> & _)|(N & ->)].
  - destruct (remove_first_spec g _ I) as (a & c & Q & Na & ->). exists a, c, r. auto.
  - contradiction.
  - contradiction.
  - reflexivity.
Qed.
Definition tA : text := tx "_UNIT=a". Definition tB : text := tx "_UNIT=b". Definition tC : text := tx "_COMM=c".
Definition ok (_ : text) : bool := true.
Theorem C86_demo :
  let s := run ok true 600 (fresh [] 0 0 [] flush_matches None) [OAdd [tA; tB; tC; plus; tC]; OAdd [tA]; ODel (Some [tC])] in
  s_matches s = [[tA; tB; tC]; [tA]] /\
  sel s (mkE 0 0 None [tA]) = true /\ sel s (mkE 0 0 None [tB]) = false /\ sel s (mkE 0 0 None [tB; tC]) = true /\ sel s (mkE 0 0 None [tC]) = false.
Proof. vm_compute. repeat split. Qed.
(** An empty alternative (a plus sign at the end) has no condition that an entry could fail, and it is listed; but the
    journal drops it, so it does not choose every entry. *)
Theorem C86_empty_refuted : ~ forall (valid : text -> bool) os e g,
  let s := run valid true 600 (fresh [] 0 0 [] flush_matches None) os in
  In g (s_matches s) -> met g e -> sel s e = true.
Proof.
  intros H. specialize (H ok [OAdd [tA; plus]] (mkE 0 0 None []) []). cbv zeta in H.
  assert (In [] (s_matches (run ok true 600 (fresh [] 0 0 [] flush_matches None) [OAdd [tA; plus]]))) as I by (vm_compute; auto).
  specialize (H I ltac:(intros t [])). vm_compute in H. discriminate H.
Qed.
(** A match with a plus sign can be added but not deleted with the same words: the alternatives are listed one by one,
    so the whole is not found and delJournalMatch is an error. *)
Theorem C86_undo_refuted : ~ forall (valid : text -> bool) m,
  let s := run valid true 600 (fresh [] 0 0 [] flush_matches None) [OAdd m] in
  fst (add_match valid m [] flush_matches) = true -> fst (del_match valid (Some m) (s_matches s) (s_reader s)) = true.
Proof. intros H. specialize (H ok [tA; plus; tB] eq_refl). vm_compute in H. discriminate H. Qed.

(** ** C87: following the journal *)
(** Every entry is read at most once and in the order of the journal, and only entries that the matches select and
    that come after the position of the start; and those read come before all that are still unread. *)
Theorem C87_once : forall valid has_db findtime s os,
  looping s -> journal_ok s -> loc_ok s -> (forall o, In o os -> changes_matches o = false) ->
  let s' := run valid has_db findtime s os in
  exists new, s_read s' = s_read s ++ new /\ increasing (keys new) /\
  (forall e x, In (e, x) new -> sel s e = true /\ after (s_loc s) e = true) /\
  (forall e x f, In (e, x) new -> In f (unread s') -> e_key e < e_key f).
Proof.
  intros valid has_db findtime s os L J Lo C s'.
  destruct (once_run valid has_db findtime os s s [] (once_refl s Lo) L J Lo C) as (new & O & _). exists new. destruct O. auto.
Qed.
(** No entry is lost while journal files are rotated away, as long as the entry of the position is still there (or
    nothing before it) when the journal is invalidated. *)
Theorem C87_complete : forall valid has_db findtime s os,
  looping s -> journal_ok s -> loc_ok s -> (forall o, In o os -> changes_matches o = false) -> calm valid has_db findtime s os ->
  let s' := run valid has_db findtime s os in
  exists new, s_read s' = s_read s ++ new /\
  forall e, In e (s_journal s') -> sel s e = true -> after (s_loc s) e = true -> In e (map fst new) \/ In e (unread s').
Proof.
  intros valid has_db findtime s os L J Lo C Ca s'. apply (complete_run valid has_db findtime os s s []); auto; [now rewrite app_nil_r|].
  intros e He Se Ae. right. apply unread_in. auto.
Qed.
(** When nothing is removed: what has been read and what is unread are together, in order, exactly the selected
    entries after the position, those that were there and those that were added. *)
Theorem C87_exact : forall valid has_db findtime s os,
  placed s -> looping s -> journal_ok s -> loc_ok s -> (forall o, In o os -> changes_matches o = false /\ removes o = false) ->
  let s' := run valid has_db findtime s os in
  exists new, s_read s' = s_read s ++ new /\
  map fst new ++ unread s' = filter (fun e => sel s e && after (s_loc s) e) (s_journal s').
Proof.
  intros valid has_db findtime s os P L J Lo C s'. apply (exact_run valid has_db findtime os s s []); auto. now rewrite app_nil_r.
Qed.
(** And the thread gets through: with n unread entries all are read within 3 n + 2 of its steps. *)
Theorem C87_progress : forall valid has_db findtime s os,
  s_active s = true -> s_idle s = false -> s_pc s = PWait \/ s_pc s = PRead \/ s_pc s = PEnd -> journal_ok s -> loc_ok s ->
  runs os -> calm valid has_db findtime s os -> (3 * length (unread s) + 2 <= length os)%nat ->
  unread (run valid has_db findtime s os) = [].
Proof.
  intros valid has_db findtime s os A I P J Lo R C Hl. apply all_read; auto. unfold rank. destruct (s_pc s); lia.
Qed.
(** Errors: an entry that cannot be made a line is passed over and counted; it is not handed over and the stored
    position does not change.  At the hundredth error the jail goes idle. *)
Theorem C87_errors : forall valid has_db findtime s os w e rest,
  0 <= s_errors s < 100 ->
  let s' := run valid has_db findtime s os in
  0 <= s_errors s' < 100 /\
  (s_pc s' = PRead -> s_active s' = true -> journal_ok s' -> unread s' = e :: rest ->
   let s'' := step valid has_db findtime s' (ORun w false true) in
   s_read s'' = s_read s' ++ [(e, None)] /\ unread s'' = rest /\ s_db s'' = s_db s' /\ s_pend s'' = s_pend s' /\ s_last s'' = s_last s' /\
   (s_errors s' < 99 -> s_errors s'' = s_errors s' + 1 /\ s_idle s'' = s_idle s') /\
   (s_errors s' = 99 -> s_errors s'' = 50 /\ s_idle s'' = true)).
Proof.
  intros valid has_db findtime s os w e rest H s'. split.
  - unfold s'. clear s'. revert s H. induction os as [|o os IH]; intros s H; [exact H|]. cbn [run fold_left]. apply IH, errors_step, H.
  - assert (0 <= s_errors s' < 100) as Hr.
    { unfold s'. clear s'. revert s H. induction os as [|o os IH]; intros s H; [exact H|]. cbn [run fold_left]. apply IH, errors_step, H. }
    intros P A J U s''. unfold s''. cbn [step]. unfold thread. rewrite P, A. cbn [negb].
    destruct (get_next (selects (s_reader s')) (s_journal s') (s_loc s')) as ([x|], l) eqn:G.
    + destruct (get_next_some _ _ _ _ _ (j_order s' J) G) as (-> & _ & _ & _ & U'). change (unread s' = x :: later (sel s') (LAt (e_key x)) (s_journal s')) in U'.
      rewrite U in U'. injection U' as <- ->. cbv zeta. unfold common_error. cbn [set_pc passed set_loc s_errors].
      destruct (Z.leb_spec 100 (s_errors s' + 1)); repeat split; cbn; try lia.
    + destruct (get_next_none _ _ _ _ G) as (_ & U'). change (unread s' = []) in U'. congruence.
Qed.
Definition jold : list entry := [mkE 1 100000000 None [tA]; mkE 2 200000000 None [tB]; mkE 3 300000000 None [tA]].
Definition r w := ORun w false false.
Definition started : st := run ok true 600 (fresh jold 4 400000000 [] flush_matches None) [OAdd [tA]; r NOP; r NOP].
Lemma jold_ok s : s_journal s = jold -> s_seq s = 4 -> s_now s = 400000000 -> journal_ok s.
Proof.
  intros E1 E2 E3. constructor; rewrite ?E1, ?E2, ?E3; unfold jold.
  - cbn [ordered]. split; [intros f [<-|[<-|[]]]; cbn [e_key e_real]; lia|]. split; [intros f [<-|[]]; cbn [e_key e_real]; lia|]. split; [intros f []|exact I].
  - intros e [<-|[<-|[<-|[]]]]; cbn [e_key e_real]; lia.
Qed.
Theorem C87_demo :
  placed started /\ looping started /\ journal_ok started /\ loc_ok started /\ s_active started = true /\ s_idle started = false /\
  (let s := run ok true 600 started [r NOP; r NOP; OAppend None [tA]; OClock 500000000; OAppend None [tB]; r NOP; r NOP; r NOP; r NOP; r INVALIDATE; r NOP] in
   map (fun x => e_key (fst x)) (s_read s) = [1; 3; 4] /\ unread s = []).
Proof.
  split; [vm_compute; split; [reflexivity|]|]. 
  { intros e [<-|[<-|[<-|[]]]] H; try reflexivity; discriminate H. }
  split; [exact I|]. split.
  { apply jold_ok; vm_compute; reflexivity. }
  split; [vm_compute; discriminate|]. split; [reflexivity|]. split; [reflexivity|]. vm_compute. split; reflexivity.
Qed.
(** The start of a jail whose matches select no entry yet: the thread looks for the last entry, and then seeks to the
    present time.  An entry that is written in between is before that time and is never read. *)
Theorem C87_start_refuted : ~ forall valid os1 os2 src terms,
  (forall o, In o os2 -> changes_matches o = false) ->
  let s1 := run valid true 600 (fresh [] 0 1 [] flush_matches None) (OAdd [tA] :: os1) in
  let s2 := run valid true 600 s1 (OAppend src terms :: os2) in
  s_pc s1 <> PCheck -> sel s2 (mkE (s_seq s1) (s_now s1) src terms) = true -> looping s2 ->
  In (mkE (s_seq s1) (s_now s1) src terms) (map fst (s_read s2)) \/ In (mkE (s_seq s1) (s_now s1) src terms) (unread s2).
Proof.
  intros H. specialize (H ok [r NOP] [OClock 5; r NOP; r NOP; r NOP] None [tA]).
  assert (forall o, In o [OClock 5; r NOP; r NOP; r NOP] -> changes_matches o = false) as C by (intros o [<-|[<-|[<-|[<-|[]]]]]; reflexivity).
  specialize (H C). vm_compute in H. destruct H as [[]|[]]; try reflexivity; try exact I. discriminate.
Qed.
(** Rotation: the journal is invalidated while the entry of the position has been removed and older ones are still
    there.  The move back and forth goes to an older entry and then to the next one, which was not read yet: it is
    passed over. *)
Theorem C87_rotation_refuted : ~ forall valid s os,
  looping s -> journal_ok s -> loc_ok s -> placed s -> (forall o, In o os -> changes_matches o = false) ->
  let s' := run valid true 600 s os in
  forall e, In e (s_journal s') -> sel s e = true -> after (s_loc s) e = true -> In e (map fst (s_read s')) \/ In e (unread s').
Proof.
  intros H. pose proof C87_demo as (P & L & J & Lo & _).
  specialize (H ok started [r NOP; r NOP; r NOP; r NOP; r NOP; ORemove [3]; OAppend None [tA]; r INVALIDATE; r NOP] L J Lo P).
  assert (forall o, In o [r NOP; r NOP; r NOP; r NOP; r NOP; ORemove [3]; OAppend None [tA]; r INVALIDATE; r NOP] -> changes_matches o = false) as C
    by (intros o Ho; repeat (destruct Ho as [<-|Ho]; [reflexivity|]); destruct Ho).
  specialize (H C (mkE 4 400000000 None [tA])). vm_compute in H. 
  destruct H as [Q|Q]; try reflexivity; [right; right; left; reflexivity| |destruct Q].
  repeat (destruct Q as [Q|Q]; [discriminate Q|]). destruct Q.
Qed.
(** When matches are deleted and added again around an invalidation, the position goes back to an older entry: an
    entry that was read is read, and its failure counted, a second time. *)
Theorem C87_twice_refuted : ~ forall valid s os, looping s -> journal_ok s -> loc_ok s -> placed s ->
  let s' := run valid true 600 s os in exists new, s_read s' = s_read s ++ new /\ increasing (keys new).
Proof.
  intros H. pose proof C87_demo as (P & L & J & Lo & _).
  destruct (H ok started [r NOP; r NOP; OAdd [tB]; OAppend None [tB]; r NOP; r NOP; r NOP; r NOP; r NOP; ODel (Some [tB]); r INVALIDATE; OAdd [tB]; r NOP] L J Lo P) as (new & E & K).
  cbv zeta in E. assert (keys (s_read (run ok true 600 started [r NOP; r NOP; OAdd [tB]; OAppend None [tB]; r NOP; r NOP; r NOP; r NOP; r NOP; ODel (Some [tB]); r INVALIDATE; OAdd [tB]; r NOP])) = [1; 2; 3; 4; 4]) as Q by (vm_compute; reflexivity).
  rewrite E in Q. change (s_read started) with (@nil (entry * option bool)) in Q. cbn [app] in Q. rewrite Q in K. cbn [increasing] in K.
  destruct K as (_ & _ & _ & K & _). specialize (K 4 (or_introl eq_refl)). lia.
Qed.

(** ** C88: the position in the database *)
(** The stored position is the one of before or the time of an entry that has been handed over; after a stop (when
    every entry could be made a line) it is the time of the last one handed over. *)
Theorem C88_position : forall valid findtime j seq now ms rd db os,
  let s := run valid true findtime (fresh j seq now ms rd db) os in
  (s_db s = db \/ exists e b, In (e, Some b) (s_read s) /\ s_db s = Some (entry_time e)) /\
  ((forall o, In o os -> is_bad o = false) -> s_pc s = PDone -> s_db s = last_time db (s_read s)).
Proof.
  intros valid findtime j seq now ms rd db os s.
  assert (Pos db s) as P by (apply pos_all, pos_fresh). split.
  - destruct (p_db db s P) as [Q|(t & Q & (e & b & He & ->))]; [now left|right; eauto].
  - intros B D. assert (clean true s) as C by (apply clean_run; [intros _; reflexivity|exact B]).
    specialize (C eq_refl). rewrite D in C. destruct C as (C1 & C2). rewrite <- (p_new db s P). unfold newest. rewrite C1, C2. reflexivity.
Qed.
(** It is not older than ten seconds of work: when the reading of a batch ends, the time of the last entry is stored,
    unless a position was stored less than ten seconds ago. *)
Theorem C88_soon : forall valid findtime j seq now ms rd db os w err bad, 0 <= now ->
  let s := run valid true findtime (fresh j seq now ms rd db) os in
  s_pc s = PEnd ->
  s_db (step valid true findtime s (ORun w err bad)) = last_time db (s_read s) \/
  exists os1 o os2, os = os1 ++ o :: os2 /\
    let s1 := run valid true findtime (fresh j seq now ms rd db) os1 in
    s_pc s1 = PEnd /\ s_now s < s_now s1 + 10 * second /\
    s_db (step valid true findtime s1 o) = last_time db (s_read s1).
Proof.
  intros valid findtime j seq now ms rd db os w err bad N s P. set (f := fresh j seq now ms rd db) in *.
  assert (forall k, Pos db (run valid true findtime f k)) as Ps by (intros k; apply pos_all, pos_fresh).
  assert (now <= s_now s) as Nw.
  { unfold s. clear - N. assert (forall os f, s_now f <= s_now (run valid true findtime f os)) as G; [|apply (G os f)].
    clear. induction os as [|o os IH]; intros f; [cbn; lia|]. cbn [run fold_left]. specialize (IH (step valid true findtime f o)).
    assert (s_now f <= s_now (step valid true findtime f o)) as Q; [|unfold run in *; lia].
    destruct (is_run o) eqn:R; [|apply env_now, R]. destruct o; try discriminate R. cbn [step]. unfold thread. destruct (s_pc f).
    - unfold check_last. destruct (get_previous _ _ _) as ([e|], l); cbn; lia.
    - destruct last; cbn; lia.
    - destruct (negb (s_active f)); [unfold finish; destruct (s_pend f); cbn; lia|]. cbv zeta.
      match goal with |- context [if s_idle ?x then _ else _] => assert (s_now x = s_now f) as K; [|destruct (s_idle x); cbn [set_pc s_now]; lia] end.
      match goal with |- context [match ?wc with INVALIDATE => _ | _ => _ end] => destruct wc end; try reflexivity.
      match goal with |- context [if ?b then _ else _] => destruct b end; [|reflexivity]. unfold back_and_forth. destruct (get_previous _ _ _) as ([e|], l); reflexivity.
    - destruct (negb (s_active f)); [cbn; lia|]. destruct (if err then _ else _) as ([e|], l); [|cbn; lia]. cbv zeta. destruct bad.
      + unfold common_error. destruct (100 <=? _); cbn; lia.
      + destruct (switch_mode_eq e (set_loc l f)) as (bo & m & ->). destruct (100 <=? _); cbn; lia.
    - unfold end_batch. cbv zeta. destruct (match s_last f with Some t => _ | None => _ end); [destruct (_ || _)|]; cbn; lia.
    - lia. }
  rewrite <- (p_new db s (Ps os)).
  destruct (Z.leb_spec (s_upd s) (s_now s)) as [Le|Gt]; [left; apply end_stored; auto|right].
  destruct (upd_all valid true findtime f os) as [U|(os1 & o & os2 & E & P1 & U & Db)].
  - change (s_upd f) with 0 in U. fold s in U. lia.
  - exists os1, o, os2. split; [exact E|]. cbv zeta. split; [exact P1|]. fold s in U. split; [lia|].
    rewrite <- (p_new db _ (Ps os1)). rewrite <- Db. rewrite run_app. reflexivity.
Qed.
(** The start: unread is everything selected that is later than the stored position and than the find time allows;
    nothing, when no entry is selected. *)
Theorem C88_start : forall valid has_db findtime s w1 e1 b1 env w2 e2 b2,
  s_pc s = PCheck -> journal_ok s -> (forall o, In o env -> is_run o = false /\ changes_matches o = false) ->
  let s' := run valid has_db findtime s (ORun w1 e1 b1 :: env ++ [ORun w2 e2 b2]) in
  looping s' /\ journal_ok s' /\ s_read s' = s_read s /\
  ((exists x, In x (s_journal s) /\ sel s x = true) ->
     unread s' = filter (fun e => sel s e && (Z.max (if has_db then match s_db s with Some p => p | None => 0 end else 0) (s_now s' - findtime * second) <? e_real e)) (s_journal s')) /\
  ((forall x, In x (s_journal s) -> sel s x = false) -> unread s' = []) /\
  (0 < findtime -> 0 < s_now s -> (forall p, s_db s = Some p -> p < s_now s) -> loc_ok s' /\ ((exists x, In x (s_journal s) /\ sel s x = true) -> placed s')).
Proof.
  intros valid has_db findtime s w1 e1 b1 env w2 e2 b2 P J H s'.
  destruct (begin_spec valid has_db findtime s w1 e1 b1 env w2 e2 b2 P J H) as (L & J' & Er & Ed & Rd & Nw & _ & Hj & Hu & H0 & Hl & Hp). fold s' in L, J', Er, Ed, Rd, Nw, Hj, Hu, H0, Hl, Hp.
  split; [exact L|]. split; [exact J'|]. split; [exact Rd|]. split; [|split; [exact H0|]].
  - intros (x & Hx & Sx). rewrite (Hu x Hx Sx). unfold from. rewrite Ed. reflexivity.
  - intros F N Db. split.
    + apply Hl; [lia|]. destruct has_db; [|lia]. destruct (s_db s) as [p|]; [specialize (Db p eq_refl)|]; lia.
    + intros (x & Hx & Sx). apply (Hp x Hx Sx F). destruct has_db; [|lia]. destruct (s_db s) as [p|]; [specialize (Db p eq_refl)|]; lia.
Qed.
(** No entry is lost over a restart: one that was not read before the stop is unread after the next start, if it is
    in the find time and its time is later than that of the entries before it. *)
Theorem C88_restart : forall valid findtime f os0 os w1 e1 b1 env0 w2 e2 b2 w3 e3 b3 env w4 e4 b4,
  f = fresh (s_journal f) (s_seq f) (s_now f) (s_matches f) (s_reader f) (s_db f) -> journal_ok f ->
  0 < findtime -> 0 < s_now f -> (forall p, s_db f = Some p -> p < s_now f) ->
  (forall o, In o (env0 ++ env) -> is_run o = false /\ changes_matches o = false) ->
  os0 = ORun w1 e1 b1 :: env0 ++ [ORun w2 e2 b2] ->
  let s0 := run valid true findtime f os0 in
  let s := run valid true findtime s0 os in
  (forall o, In o os -> changes_matches o = false /\ is_bad o = false) -> b1 = false -> b2 = false -> calm valid true findtime s0 os -> s_pc s = PDone ->
  let s2 := run valid true findtime (fresh (s_journal s) (s_seq s) (s_now s) (s_matches s) (s_reader s) (s_db s)) (ORun w3 e3 b3 :: env ++ [ORun w4 e4 b4]) in
  (exists x, In x (s_journal s) /\ sel s x = true) ->
  forall e, In e (s_journal s2) -> sel s2 e = true -> after (s_loc s0) e = true ->
  s_now s2 - findtime * second < e_real e -> 0 < e_real e -> (forall p, s_db f = Some p -> p < e_real e) ->
  (forall h b, In (h, b) (s_read s) -> e_key h < e_key e -> entry_time h < e_real e) ->
  In e (map fst (s_read s)) \/ In e (unread s2).
Proof.
  intros valid findtime f os0 os w1 e1 b1 env0 w2 e2 b2 w3 e3 b3 env w4 e4 b4 Ef Jf Ft N0 Db He E0 s0 s Ho B1 B2 Ca Pd s2 Hx e.
  subst os0. subst b1 b2.
  assert (s_pc f = PCheck) as Pf by (rewrite Ef; reflexivity).
  assert (forall o, In o env0 -> is_run o = false /\ changes_matches o = false) as He0 by (intros o Ho'; apply He; apply in_app_iff; now left).
  assert (forall o, In o env -> is_run o = false /\ changes_matches o = false) as He1 by (intros o Ho'; apply He; apply in_app_iff; now right).
  destruct (C88_start valid true findtime f w1 e1 false env0 w2 e2 false Pf Jf He0) as (L0 & J0 & R0 & _ & _ & Hl). fold s0 in L0, J0, R0, Hl.
  destruct (Hl Ft N0 Db) as (Lo0 & _).
  assert (forall o, In o os -> changes_matches o = false) as Hc by (intros o Ho'; apply (Ho o Ho')).
  assert (s_read s0 = []) as R1 by (rewrite R0, Ef; reflexivity).
  destruct (once_run valid true findtime os s0 s0 [] (once_refl s0 Lo0) L0 J0 Lo0 Hc) as (new & O & _ & J & _). fold s in O, J.
  assert (Pos (s_db f) s) as P by (unfold s, s0; apply pos_all, pos_all; rewrite Ef at 2; apply pos_fresh).
  assert (clean true s) as C.
  { unfold s. apply clean_run; [|intros o Ho'; apply (Ho o Ho')]. unfold s0. apply clean_run; [intros _; rewrite Ef; reflexivity|].
    intros o [<-|Ho']; [reflexivity|]. apply in_app_iff in Ho'. destruct Ho' as [Ho'|[<-|[]]]; [|reflexivity]. destruct (He0 o Ho') as (Q & _). destruct o; try reflexivity. discriminate Q. }
  apply (restart_spec valid true findtime s0 s new (s_db f) eq_refl O P C Pd J R1); auto.
  intros x Ix Sx Ax. destruct (C87_complete valid true findtime s0 os L0 J0 Lo0 Hc Ca) as (new' & En & Com). fold s in En, Com.
  assert (new' = new) as -> by (rewrite (o_read s0 s new O) in En; apply app_inv_head in En; congruence). exact (Com x Ix Sx Ax).
Qed.
Theorem C88_demo :
  let s := run ok true 600 started [r NOP; r NOP; OAppend None [tA]; OStop; r NOP; r NOP; r NOP] in
  s_pc s = PDone /\ s_db s = Some 100000000 /\ map (fun x => e_key (fst x)) (s_read s) = [1] /\
  let s2 := run ok true 600 (fresh (s_journal s) (s_seq s) (s_now s) (s_matches s) (s_reader s) (s_db s)) [r NOP; OClock 500000000; r NOP] in
  map e_key (unread s2) = [3; 4].
Proof. vm_compute. repeat split. Qed.
(** The position is the time when the message was made (_SOURCE_REALTIME_TIMESTAMP), but the seek compares the time
    when the journal received it, which is a little later: after a restart the last entry is read again and its failure is
    counted a second time. *)
Theorem C88_again_refuted : ~ forall valid findtime s os env,
  s_pc s = PDone -> s = run valid true findtime (fresh [] 1 1000000000 [] flush_matches None) os ->
  (forall o, In o env -> is_run o = false /\ changes_matches o = false) ->
  let s2 := run valid true findtime (fresh (s_journal s) (s_seq s) (s_now s) (s_matches s) (s_reader s) (s_db s)) (r NOP :: env ++ [r NOP]) in
  forall e, In e (map fst (s_read s)) -> ~ In e (unread s2).
Proof.
  intros H. set (os := [r NOP; r NOP; OClock 2000000000; OAppend (Some 1999999950) [tA]; r NOP; r NOP; OStop; r NOP; r NOP; r NOP]).
  specialize (H ok 600 (run ok true 600 (fresh [] 1 1000000000 [] flush_matches None) os) os [] eq_refl eq_refl ltac:(intros o [])).
  apply (H (mkE 1 2000000000 (Some 1999999950) [tA])); vm_compute; auto.
Qed.
(** Two entries of one and the same time: when the stop comes between them, the second is not later than the stored
    position and is lost. *)
Theorem C88_tie_refuted : ~ forall valid findtime s os env,
  s_pc s = PDone -> s = run valid true findtime (fresh [] 1 1000000000 [] flush_matches None) os ->
  (forall o, In o env -> is_run o = false /\ changes_matches o = false) ->
  let s2 := run valid true findtime (fresh (s_journal s) (s_seq s) (s_now s) (s_matches s) (s_reader s) (s_db s)) (r NOP :: env ++ [r NOP]) in
  forall e, In e (s_journal s2) -> s_now s2 - findtime * second < e_real e -> In e (map fst (s_read s)) \/ In e (unread s2).
Proof.
  intros H. set (os := [r NOP; r NOP; OClock 2000000000; OAppend None [tA]; OAppend None [tB]; r NOP; r NOP; OStop; r NOP; r NOP; r NOP]).
  specialize (H ok 600 (run ok true 600 (fresh [] 1 1000000000 [] flush_matches None) os) os [] eq_refl eq_refl ltac:(intros o [])).
  specialize (H (mkE 2 2000000000 None [tB])). vm_compute in H. destruct H as [Q|Q]; auto.
  destruct Q as [Q|Q]; [discriminate Q|destruct Q].
Qed.
(** When an entry that cannot be made a line is followed by the stop, the position of the entries that were handed
    over before it is not stored: they are read again at the next start. *)
Theorem C88_stop_refuted : ~ forall valid findtime s os,
  s_pc s = PDone -> s = run valid true findtime (fresh [] 1 1000000000 [] flush_matches None) os -> s_db s = last_time None (s_read s).
Proof.
  intros H. set (os := [r NOP; r NOP; OClock 2000000000; OAppend None [tA]; OAppend None [tB]; r NOP; r NOP; ORun NOP false true; OStop; r NOP]).
  specialize (H ok 600 (run ok true 600 (fresh [] 1 1000000000 [] flush_matches None) os) os eq_refl eq_refl). vm_compute in H. discriminate H.
Qed.

(** ** C89: the operation mode *)
(** Once in operation mode, always. *)
Theorem C89_once : forall valid has_db findtime s os, looping s -> journal_ok s -> s_inop s = true ->
  (forall o, In o os -> changes_matches o = false) -> loc_ok s -> s_inop (run valid has_db findtime s os) = true.
Proof.
  intros valid has_db findtime s os. revert s. induction os as [|o os IH]; intros s L J I C Lo; [exact I|].
  assert (changes_matches o = false) as Co by (apply C; now left).
  destruct (step_env valid has_db findtime s o L J Lo Co) as (L1 & J1 & Lo1 & _).
  cbn [run fold_left]. apply IH; auto; [|intros x Hx; apply C; now right].
  destruct (is_run o) eqn:R; [|destruct (env_rest valid has_db findtime s o R) as (_ & _ & _ & _ & E & _); congruence].
  destruct o; try discriminate R. apply thread_mono; assumption.
Qed.
(** It begins when the end of the journal is reached, or with an entry that is not older than one second. *)
Theorem C89_begin : forall valid has_db findtime s w, s_pc s = PRead -> s_active s = true -> journal_ok s ->
  let s' := step valid has_db findtime s (ORun w false false) in
  (unread s = [] -> s_inop s' = true) /\
  (forall e rest, unread s = e :: rest -> s_now s - second <= entry_time e -> s_read s' = s_read s ++ [(e, Some true)] /\ s_inop s' = true).
Proof.
  intros valid has_db findtime s w P A J s'. unfold s'. cbn [step]. unfold thread. rewrite P, A. cbn [negb].
  destruct (get_next (selects (s_reader s)) (s_journal s) (s_loc s)) as ([x|], l) eqn:G.
  - destruct (get_next_some _ _ _ _ _ (j_order s J) G) as (-> & _ & _ & _ & U). change (unread s = x :: later (sel s) (LAt (e_key x)) (s_journal s)) in U.
    split; [congruence|]. intros e rest U' T. rewrite U in U'. injection U' as <- <-. cbv zeta.
    assert (s_inop (switch_mode x (set_loc (LAt (e_key x)) s)) = true) as Q.
    { unfold switch_mode. cbn [set_loc s_inop s_now]. destruct (s_inop s) eqn:Ei; [cbn; exact Ei|]. assert (s_now s - second <=? entry_time x = true) as -> by lia. reflexivity. }
    assert (s_read (switch_mode x (set_loc (LAt (e_key x)) s)) = s_read s) as Q2 by (destruct (switch_mode_eq x (set_loc (LAt (e_key x)) s)) as (bo & m & ->); reflexivity).
    destruct (100 <=? _); cbn; rewrite Q, Q2; split; reflexivity.
  - destruct (get_next_none _ _ _ _ G) as (_ & U). change (unread s = []) in U. split; [reflexivity|]. intros e rest U'. congruence.
Qed.
(** The backlog: entries that were there at the start, with their time more than one second before it (and so all
    before them), are handed over not in operation mode: so they count with their own time, and not at all when they
    are older than the find time. *)
Theorem C89_backlog : forall valid (has_db : bool) findtime s x w os e,
  s_pc s = PSeek (Some x) -> journal_ok s -> In x (s_journal s) -> 0 <= findtime ->
  (if has_db then match s_db s with Some p => p <= s_now s | None => 0 <= s_now s end else 0 <= s_now s) ->
  e_key e <= e_key x -> (forall f, In f (s_journal s) -> e_key f <= e_key e -> entry_time f < s_now s - second) ->
  (forall o, In o os -> changes_matches o = false /\ errs o = false) ->
  let s' := run valid has_db findtime s (r w :: os) in
  exists new, s_read s' = s_read s ++ new /\ ~ In (e, Some true) new.
Proof.
  intros valid has_db findtime s x w os e P J Ix Ft Db Kx Old H s'.
  destruct (start_env has_db findtime w false false s (Some x) P) as ((F1 & F2 & F3 & F4 & _ & _) & R3 & D3).
  pose proof (start_looping has_db findtime w false false s (Some x) P) as L.
  destruct (start_placed has_db findtime w false false s (Some x) P J) as (Lo & _).
  assert (s_inop (thread has_db findtime w false false s) = false /\ s_mark (thread has_db findtime w false false s) = Mark1 (s_now s) (e_key x)) as (I1 & M1)
    by (unfold thread; rewrite P; split; reflexivity).
  unfold s'. cbn [run fold_left]. change (step valid has_db findtime s (r w)) with (thread has_db findtime w false false s).
  set (s1 := thread has_db findtime w false false s) in *.
  assert (journal_ok s1) as J1 by (destruct J as (O & Q); constructor; rewrite F1, ?F2, ?F3; assumption).
  destruct (backlog_run valid has_db findtime os s1 (e_key e) (s_now s) (e_key x) s1 []) as (new & B); auto.
  - intros f Hf Kf. rewrite F1 in Hf. exact (Old f Hf Kf).
  - constructor; auto.
    + now rewrite app_nil_r.
    + rewrite F2. destruct J as (_ & Q). specialize (Q x Ix). lia.
    + rewrite F3. lia.
    + congruence.
    + intros f [].
  - exists new. rewrite <- R3. split; [apply (b_read _ _ _ _ _ _ B)|]. intros Q. pose proof (b_new _ _ _ _ _ _ B e Q). lia.
Qed.
Theorem C89_demo :
  let s := run ok true 600 (fresh jold 4 400000000 [] flush_matches None) [r NOP] in
  s_pc s = PSeek (Some (mkE 3 300000000 None [tA])) /\
  s_read (run ok true 600 s [r NOP; r NOP; r NOP; r NOP; OAppend None [tA]; r NOP; r NOP]) =
    [(mkE 1 100000000 None [tA], Some false); (mkE 2 200000000 None [tB], Some false); (mkE 3 300000000 None [tA], Some false); (mkE 4 400000000 None [tA], Some true)].
Proof. vm_compute. split; reflexivity. Qed.
(** An error of reading (OSError) while the backlog is read is taken as the end of the journal: operation mode begins,
    and the old entries that follow count as if they just happened. *)
Theorem C89_error_refuted : ~ forall valid s x os e,
  s_pc s = PSeek (Some x) -> journal_ok s -> In x (s_journal s) -> (match s_db s with Some p => p <= s_now s | None => 0 <= s_now s end) ->
  e_key e <= e_key x -> (forall f, In f (s_journal s) -> e_key f <= e_key e -> entry_time f < s_now s - second) ->
  (forall o, In o os -> changes_matches o = false) ->
  let s' := run valid true 600 s (r NOP :: os) in
  exists new, s_read s' = s_read s ++ new /\ ~ In (e, Some true) new.
Proof.
  intros H. set (s := run ok true 600 (fresh jold 4 400000000 [] flush_matches None) [r NOP]).
  set (os := [r NOP; ORun NOP true false; r NOP; r NOP; r NOP]).
  destruct (H ok s (mkE 3 300000000 None [tA]) os (mkE 1 100000000 None [tA])) as (new & E & N); try reflexivity.
  - apply jold_ok; vm_compute; reflexivity.
  - vm_compute. auto.
  - vm_compute. discriminate.
  - vm_compute. discriminate.
  - intros f Hf. vm_compute in Hf. destruct Hf as [<-|[<-|[<-|[]]]]; intros Q; vm_compute; try reflexivity; exfalso; apply Q; reflexivity.
  - intros o Ho. repeat (destruct Ho as [<-|Ho]; [reflexivity|]). destruct Ho.
  - apply N. change (s_read s) with (@nil (entry * option bool)) in E. cbn [app] in E. rewrite <- E. vm_compute. auto.
Qed.

(** ** C90: the line made of an entry *)
(** An entry is one line: whatever its fields contain, there is no newline in it. *)
Theorem C90_line : forall int_of dec f, ~ In newline (format_entry int_of dec f).
Proof. intros int_of dec f. unfold format_entry. apply escape_clean. Qed.
(** The message is the end of the line, whole, and what comes before does not depend on it. *)
Theorem C90_message : forall int_of dec f, exists head, 
  (forall m, ~ In newline m -> format_entry int_of dec (with_message (inl m) f) = head ++ m) /\
  (forall l, ~ In newline (join (tx " ") l) -> format_entry int_of dec (with_message (inr l) f) = head ++ join (tx " ") l).
Proof.
  intros int_of dec f.
  assert (exists head, forall m, format_entry int_of dec (with_message m f) = head ++ escape_newlines (match m with inl m => m | inr l => join (tx " ") l end)) as (head & H).
  { unfold format_entry, with_message. cbn [f_host f_ident f_comm f_syslog_pid f_pid f_mono f_message].
    match goal with |- exists head, forall m, escape_newlines (join _ (?a ++ ?b ++ [_])) = _ => set (l := a ++ b) end.
    exists (match l with [] => [] | _ => escape_newlines (join (tx " ") l ++ tx " ") end). intros m. 
    match goal with |- escape_newlines (join ?sep (?a ++ ?b ++ [?x])) = _ => replace (a ++ b ++ [x]) with (l ++ [x]) by (unfold l; rewrite <- app_assoc; reflexivity) end.
    rewrite join_snoc. destruct l; [reflexivity|]. rewrite app_assoc, escape_app. reflexivity. }
  exists head. split; intros m N; rewrite H, escape_id by exact N; reflexivity.
Qed.
(** host identifier[pid]: message *)
Theorem C90_form : forall int_of dec host ident comm spid pid mono m n,
  ~ In newline (host ++ ident ++ dec n ++ m) -> host <> [] -> n <> 0 ->
  (ident <> [] -> format_entry int_of dec (mkF host ident comm (Some (inl n)) pid mono (inl m)) = host ++ tx " " ++ ident ++ tx "[" ++ dec n ++ tx "]: " ++ m) /\
  (ident <> [] -> spid = None \/ spid = Some (inl 0) -> format_entry int_of dec (mkF host ident comm spid (Some (inl n)) mono (inl m)) = host ++ tx " " ++ ident ++ tx "[" ++ dec n ++ tx "]: " ++ m) /\
  (ident <> [] -> ident <> tx "kernel" -> format_entry int_of dec (mkF host ident comm None None mono (inl m)) = host ++ tx " " ++ ident ++ tx ": " ++ m) /\
  (forall sp p mo me, format_entry int_of dec (mkF host [] comm sp p mo me) = format_entry int_of dec (mkF host comm [] sp p mo me)).
Proof.
  intros int_of dec host ident comm spid pid mono m n Nl Nh Nn.
  assert (forall w, ~ In newline w -> ident ++ w <> tx "kernel:" -> escape_newlines (join (tx " ") (nonempty host ++ ((ident ++ w) :: (if eqb (ident ++ w) (tx "kernel:") then [mono] else [])) ++ [m])) = host ++ tx " " ++ (ident ++ w) ++ tx " " ++ m) as K.
  { intros w Nw Nk. destruct (eqb_spec (ident ++ w) (tx "kernel:")) as [Q|_]; [contradiction|]. destruct host as [|h host]; [congruence|]. cbn [nonempty app].
    change (join (tx " ") [h :: host; ident ++ w; m]) with ((h :: host) ++ tx " " ++ (ident ++ w) ++ tx " " ++ m). rewrite escape_id; [reflexivity|].
    rewrite !in_app_iff in *. intros [Q|[Q|[[Q|Q]|[Q|Q]]]]; try tauto; destruct Q as [Q|[]]; discriminate Q. }
  assert (forall w, ident ++ tx "[" ++ w ++ tx "]" ++ tx ":" <> tx "kernel:") as NK.
  { intros w Q. apply (f_equal (@rev _)) in Q. rewrite !rev_app_distr in Q. vm_compute in Q. discriminate Q. }
  assert (ident <> [] -> forall spid pid, (if falsy spid then pid else spid) = Some (inl n) -> format_entry int_of dec (mkF host ident comm spid pid mono (inl m)) = host ++ tx " " ++ ident ++ tx "[" ++ dec n ++ tx "]: " ++ m) as K1.
  { intros Ni sp p E. unfold format_entry. cbn [f_host f_ident f_comm f_syslog_pid f_pid f_mono f_message]. destruct ident as [|i ident]; [congruence|]. rewrite E. cbn [falsy].
    assert (n =? 0 = false) as -> by lia. cbv zeta. cbn [pid_text].
    refine (eq_trans (K ((tx "[" ++ dec n ++ tx "]") ++ tx ":") _ _) _).
    - rewrite !in_app_iff in *. intros [[Q|[Q|Q]]|Q]; try tauto; destruct Q as [Q|[]]; discriminate Q.
    - rewrite <- !app_assoc. apply NK.
    - rewrite <- !app_assoc. reflexivity. }
  split; [|split; [|split]].
  - intros Ni. apply (K1 Ni). cbn [falsy]. assert (n =? 0 = false) as -> by lia. reflexivity.
  - intros Ni [-> | ->]; apply (K1 Ni); reflexivity.
  - intros Ni Nk. unfold format_entry. cbn [f_host f_ident f_comm f_syslog_pid f_pid f_mono f_message]. destruct ident as [|i ident]; [congruence|]. cbn [falsy]. cbv zeta.
    refine (eq_trans (K (tx ":") _ _) _).
    + intros [Q|[]]. discriminate Q.
    + intros Q. apply Nk. change (tx "kernel:") with (tx "kernel" ++ tx ":") in Q. apply (app_inj_tail (i :: ident) (tx "kernel")) in Q. apply Q.
    + rewrite <- !app_assoc. reflexivity.
  - intros sp p mo me. unfold format_entry. cbn [f_host f_ident f_comm f_syslog_pid f_pid f_mono f_message]. destruct comm; reflexivity.
Qed.
Theorem C90_demo : forall int_of dec, dec 12 = tx "12" ->
  format_entry int_of dec (mkF (tx "srv") (tx "sshd") [] None (Some (inl 12)) [] (inl (tx "Failed"))) = tx "srv sshd[12]: Failed" /\
  format_entry int_of dec (mkF (tx "srv") (tx "kernel") [] None None (tx "[1.5]") (inl (tx "x" ++ [newline] ++ tx "y"))) = tx "srv kernel: [1.5] x\ny".
Proof.
  intros int_of dec E. split.
  - assert (~ In newline (tx "srv" ++ tx "sshd" ++ dec 12 ++ tx "Failed")) as N by (rewrite E; intros Q; repeat (destruct Q as [Q|Q]; [discriminate Q|]); destruct Q).
    destruct (C90_form int_of dec (tx "srv") (tx "sshd") [] None None [] (tx "Failed") 12 N ltac:(discriminate) ltac:(lia)) as (_ & F & _).
    refine (eq_trans (F ltac:(discriminate) (or_introl eq_refl)) _). rewrite E. reflexivity.
  - vm_compute. reflexivity.
Qed.

Print Assumptions C86_selection.
Print Assumptions C86_add.
Print Assumptions C86_del.
Print Assumptions C86_demo.
Print Assumptions C86_empty_refuted.
Print Assumptions C86_undo_refuted.
Print Assumptions C87_once.
Print Assumptions C87_complete.
Print Assumptions C87_exact.
Print Assumptions C87_progress.
Print Assumptions C87_errors.
Print Assumptions C87_demo.
Print Assumptions C87_start_refuted.
Print Assumptions C87_rotation_refuted.
Print Assumptions C87_twice_refuted.
Print Assumptions C88_position.
Print Assumptions C88_soon.
Print Assumptions C88_start.
Print Assumptions C88_restart.
Print Assumptions C88_demo.
Print Assumptions C88_again_refuted.
Print Assumptions C88_tie_refuted.
Print Assumptions C88_stop_refuted.
Print Assumptions C89_once.
Print Assumptions C89_begin.
Print Assumptions C89_backlog.
Print Assumptions C89_demo.
Print Assumptions C89_error_refuted.
Print Assumptions C90_line.
Print Assumptions C90_message.
Print Assumptions C90_form.
Print Assumptions C90_demo.
