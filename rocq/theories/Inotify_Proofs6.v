(** No log is ever lost sight of: adding and removing logs, and whole runs *)
From Verif Require Import Base Inotify_Model Inotify_Spec Inotify_Proofs Inotify_Proofs2 Inotify_Proofs3 Inotify_Proofs4 Inotify_Proofs5.
From Coq Require Import ZifyBool ZifyNat.
Local Open Scope string_scope.
Local Open Scope list_scope.
Local Open Scope Z_scope.

Section Logs.
  Variable s : state.
  Hypothesis HI : Inv s.
  Hypothesis Ht : todo s = [].
  Let HF := i_fs s HI.
  Let HK := i_k s HI.
  Let HN := i_n s HI.

  Lemma Inv_add_log p : dmem p (wdirs (N s)) = false -> ~ In (dirname p) (logs (N s)) -> dirname p <> [] -> Inv (add_log p s).
  Proof.
    intros G1 G2 G3. unfold add_log. destruct (inb p (logs (N s)) || negb (isfile (F s) p)) eqn:Ec; [exact HI|].
    apply orb_false_iff in Ec as [Hnl Hf]. apply negb_false_iff in Hf. apply inb_false in Hnl. unfold isfile in Hf.
    apply dmem_some in Hf as [i Hi]. destruct (fs_file _ HF p i Hi) as (Hne & Hdd & _). apply dmem_some in Hdd as [j Hj].
    set (d := dirname p) in *. set (n0 := set_logs (logs (N s) ++ [p]) (N s)).
    assert (Hpd : p <> d) by (intros E; apply (dirname_neq p Hne); now symmetry).
    assert (H1 : exists k1 wd', add_dir_watcher d (F s) (K s, n0) = (k1, set_wdirs wd' n0) /\ KI (F s) k1 (wfiles (N s)) wd' /\
               dwf wd' /\ (forall e, dmem e wd' = if eqb e d then true else dmem e (wdirs (N s))) /\ queue k1 = queue (K s) /\
               (forall w, In w (watches (K s)) -> In w (watches k1)) /\
               (dmem d (wdirs (N s)) = false -> exists w, In w (watches k1) /\ w_dir w = true /\ w_ino w = j)).
    { cbn [add_dir_watcher]. change (wdirs n0) with (wdirs (N s)). destruct (dmem d (wdirs (N s))) eqn:Ed.
      - exists (K s), (wdirs (N s)). split; [reflexivity|]. split; [exact HK|]. split; [apply (ni_dwf _ _ HN)|]. split; [|auto].
        intros e. destruct (eqb_spec e d) as [->|_]; [exact Ed | reflexivity]. split; [reflexivity|]. split; [auto | discriminate].
      - apply dmem_none in Ed as Ed'. destruct (KI_add_dir _ _ _ _ d HK HF Ed') as (k1 & v & Ea & A1 & A2 & A3 & A4). rewrite Ea.
        exists k1, (dset d v (wdirs (N s))). split; [reflexivity|]. split; [exact A1|]. split; [apply dwf_dset, (ni_dwf _ _ HN)|].
        split; [intros e; apply dmem_dset|]. split; [exact A2|]. split; [exact A3|]. intros _. now apply A4. }
    destruct H1 as (k1 & wd' & E1 & A1 & A2 & A3 & A4 & A5 & A6). unfold add_file_watcher. fold d. rewrite E1.
    assert (Hpn : dget p (wfiles (N s)) = None).
    { apply dmem_none. destruct (dmem p (wfiles (N s))) eqn:E; [|reflexivity]. now apply (ni_wl _ _ HN) in E. }
    destruct (KI_add_file _ _ _ _ p A1 HF Hpn) as (k2 & v & E2 & B1 & B2 & B3 & B4).
    change (wfiles (set_wdirs wd' n0)) with (wfiles (N s)). rewrite E2. rewrite Ht.
    set (n2 := set_times _ 0 _).
    assert (Hpp : dmem p (pend (N s)) = false).
    { destruct (dmem p (pend (N s))) eqn:E; [|reflexivity]. apply dmem_some in E as [[x b] E]. destruct b as [[|]|].
      - destruct (ni_pd _ _ HN p x E) as [H|(q & H)]; [congruence | rewrite Ht in H; discriminate].
      - destruct Hnl. now apply (ni_pf _ _ HN p x _ E).
      - destruct Hnl. now apply (ni_pf _ _ HN p x _ E). }
    destruct (add_pending_rest p None n2) as (R1 & R2 & R3 & R4 & R5 & _).
    change (logs n2) with (logs (N s) ++ [p]) in R1. change (wfiles n2) with (dset p v (wfiles (N s))) in R2.
    change (wdirs n2) with wd' in R3. change (seen n2) with (seen (N s)) in R4. change (idle n2) with (idle (N s)) in R5.
    assert (Hget : forall q, dget q (pend (add_pending p None n2)) = if eqb q p then Some (200, None) else dget q (pend (N s))).
    { intros q. rewrite add_pending_get. change (pend n2) with (pend (N s)). now rewrite Hpp. }
    assert (Hmem : forall q, dmem q (pend (N s)) = true -> dmem q (pend (add_pending p None n2)) = true).
    { intros q Hq. now apply add_pending_mem. }
    assert (Hdc : forall e, dmem e wd' = true -> DC (mkS (F s) k2 (add_pending p None n2) []) e).
    { intros e He. rewrite A3 in He. unfold DC. cbn [F K N todo]. rewrite B2, A4. destruct (dmem e (wdirs (N s))) eqn:Ee.
      - destruct (i_d s HI e Ee) as [H|[H|[H|(w & W1 & W2 & W3)]]]; auto.
        + rewrite Ht in H. destruct H.
        + right; right; right. exists w. auto.
      - destruct (eqb_spec e d) as [->|_]; [|discriminate]. destruct (A6 Ee) as (w & W1 & W2 & W3). right; right; right. exists w. rewrite W3. auto. }
    constructor; cbn [F K N todo].
    - exact HF.
    - rewrite R2, R3. exact B1.
    - pose proof (log_watched s HI) as Hset. destruct HN as [a1 a2 a3 a4 a5 a6 a7 a8 a9 a10 a11 a12 a13 a14 a15]. rewrite Ht in *.
      constructor; rewrite ?R1, ?R2, ?R3, ?R5; try assumption; auto.
      + now apply dwf_dset.
      + apply add_pending_wf. exact a3.
      + intros q [Hq|[<-|[]]]%in_app_iff; [now apply a4 | now split].
      + intros q Hq. left. rewrite dmem_dset. destruct (eqb_spec q p) as [->|Nq]; [reflexivity|].
        apply in_app_iff in Hq as [Hq|[Hq|[]]]; [now apply Hset | congruence].
      + intros q. rewrite dmem_dset. intros Hq. apply in_app_iff. destruct (eqb_spec q p) as [Eq|Nq]; [right; left; now symmetry | left; now apply a6].
      + intros q c r E. discriminate.
      + intros q Hq. left. rewrite A3. destruct (eqb_spec (dirname q) d) as [E|Nq]; [reflexivity|].
        apply in_app_iff in Hq as [Hq|[<-|[]]]; [now apply Hset | now destruct Nq].
      + intros e. rewrite A3. intros He Hin. apply in_app_iff in Hin as [Hin|[<-|[]]].
        * destruct (eqb_spec e d) as [Eq|_]; [congruence | now apply (a9 e)].
        * destruct (eqb_spec p d) as [E|_]; [contradiction | congruence].
      + intros e r E. discriminate.
      + intros m [].
      + intros q x. rewrite Hget. destruct (eqb_spec q p) as [->|Nq]; [discriminate|]. intros E. left. rewrite A3.
        destruct (eqb q d); [reflexivity|]. destruct (a13 q x E) as [H|(y & H)]; [exact H | discriminate].
      + intros q x b. rewrite Hget. intros E Hb. apply in_app_iff. destruct (eqb_spec q p) as [->|Nq]; [right; now left|].
        left. now apply (a14 q x b).
    - intros m [].
    - rewrite R3. exact Hdc.
    - intros q Hq. rewrite R1 in Hq. apply in_app_iff in Hq as [Hq|[<-|[]]].
      + pose proof (i_f s HI q Hq) as H. unfold FC, known in *. cbn [F K N todo] in *. rewrite Ht in H. rewrite B2, A4, R4.
        destruct H as [H|[H|[H|[(m & [] & _)|[H|(w & W1 & W2 & W3 & W4)]]]]]; auto 10.
        right; right; right; right; right. exists w. split; [now apply B3, A5|]. repeat split; try assumption.
        destruct W4 as [W4|[W4|[W4|[W4|[[]|[]]]]]]; auto 10.
      + unfold FC. cbn [F K N todo]. destruct (B4 i Hi) as (w & W1 & W2 & W3). right; right; right; right; right. exists w. rewrite W3.
        repeat split; try assumption. unfold known. cbn [N]. right; right; right; left. apply add_pending_same.
  Qed.

  Lemma Inv_del_log p : Inv (del_log p s).
  Proof.
    unfold del_log. destruct (inb p (logs (N s))) eqn:Ep; [|exact HI]. apply inb_In in Ep.
    destruct (log_watched s HI p Ht Ep) as (Lw & Ld & Ln). apply dmem_some in Lw as [v Hv].
    set (l' := filter (fun q => negb (eqb q p)) (logs (N s))).
    assert (Hl' : forall q, In q l' <-> In q (logs (N s)) /\ q <> p).
    { intros q. unfold l'. rewrite filter_In, negb_true_iff, eqb_neq. reflexivity. }
    cbn [del_file_watcher del_pending set_logs set_pend wfiles]. rewrite Hv. cbn [set_wfiles wfiles logs wdirs pend chk_time min_time seen idle].
    pose proof (ni_wf _ _ HN) as Wf. pose proof (ni_pwf _ _ HN) as Wp. pose proof (ni_dwf _ _ HN) as Wd.
    pose proof (KI_rm_file _ _ _ _ p v HK Wf Hv) as K1. set (d := dirname p) in *.
    destruct (ni_ne _ _ HN p Ep) as [Hne Hdne]. fold d in Hdne.
    assert (Hpd : p <> d) by (intros E; apply (dirname_neq p Hne); now symmetry).
    assert (Hkeep : forall w, In w (watches (K s)) -> w_dir w = true \/ w_path w <> p -> In w (watches (rm_watch v (K s)))).
    { intros w Hw Hor. apply rm_watches. split; [exact Hw|]. intros E. destruct (ki_wf _ _ _ _ HK p v Hv) as [_ Y].
      destruct (Y w Hw E) as [Y1 Y2]. destruct Hor; congruence. }
    assert (Hwf : forall q, dmem q (ddel p (wfiles (N s))) = true <-> In q l').
    { intros q. rewrite dmem_ddel by exact Wf. rewrite Hl'. destruct (eqb_spec q p) as [->|Nq]; [split; [discriminate | tauto]|].
      split; [intros H; split; [now apply (ni_wl _ _ HN) | exact Nq] | intros [H _]; now apply (log_watched s HI)]. }
    (* what holds for any watched directories that still include those of the remaining logs *)
    assert (Hall : forall k' wd' pend',
      KI (F s) k' (ddel p (wfiles (N s))) wd' -> dwf wd' -> dwf pend' ->
      (forall e, In e (queue (K s)) -> In e (queue k')) ->
      (forall w, In w (watches (rm_watch v (K s))) -> w_dir w = false \/ dmem (w_path w) wd' = true -> In w (watches k')) ->
      (forall e, dmem e wd' = true -> dmem e (wdirs (N s)) = true) ->
      (forall q, In q l' -> dmem (dirname q) wd' = true) ->
      (forall q x, dget q pend' = Some x -> dget q (pend (N s)) = Some x /\ q <> p /\ (dmem q (wdirs (N s)) = true -> dmem q wd' = true)) ->
      (forall q, dmem q (pend (N s)) = true -> q <> p -> In q l' \/ dmem q wd' = true -> dmem q pend' = true) ->
      Inv (mkS (F s) k' (mkN l' (ddel p (wfiles (N s))) wd' pend' (chk_time (N s)) (min_time (N s)) (seen (N s)) (idle (N s))) [])).
    { intros k' wd' pend' B1 B2 B3 B4 B5 B6 B7 B8 B9. pose proof (log_watched s HI) as Hset. constructor; cbn [F K N todo wfiles wdirs logs].
      - exact HF.
      - exact B1.
      - destruct HN as [a1 a2 a3 a4 a5 a6 a7 a8 a9 a10 a11 a12 a13 a14 a15]. rewrite Ht in *.
        constructor; cbn [wfiles wdirs logs pend idle]; try assumption; auto.
        + now apply dwf_ddel.
        + intros q Hq. apply Hl' in Hq as [Hq _]. now apply a4.
        + intros q Hq. left. now apply Hwf.
        + intros q Hq. now apply Hwf.
        + intros q c r E. discriminate.
        + intros e He Hin. apply Hl' in Hin as [Hin _]. now apply (a9 e (B6 e He)).
        + intros e r E. discriminate.
        + intros m [].
        + intros q x E. left. destruct (B8 _ _ E) as (E1 & E2 & E3). destruct (a13 q x E1) as [H|(y & H)]; [now apply E3 | discriminate].
        + intros q x b E Hb. destruct (B8 _ _ E) as (E1 & E2 & E3). apply Hl'. split; [now apply (a14 q x b) | exact E2].
      - intros m [].
      - intros e He. unfold DC. cbn [F K N todo pend]. destruct (i_d s HI e (B6 e He)) as [H|[H|[H|(w & W1 & W2 & W3)]]].
        + left. apply B9; [exact H | | now right]. intros ->. pose proof (B6 p He). congruence.
        + right; left. now apply B4.
        + rewrite Ht in H. destruct H.
        + right; right; right. exists w. split; [|auto]. apply B5; [apply Hkeep; auto|]. right. now rewrite (dir_watch_path s HI w e W1 W2 W3).
      - intros q Hq. pose proof (proj1 (Hl' q) Hq) as [Hq1 Hq2]. pose proof (i_f s HI q Hq1) as H.
        unfold FC, known in *. cbn [F K N todo pend seen] in *. rewrite Ht in H.
        destruct H as [H|[H|[H|[(m & [] & _)|[H|(w & W1 & W2 & W3 & W4)]]]]].
        + left. apply B9; [exact H | | right; now apply B7]. intros E. pose proof (B6 _ (B7 q Hq)) as E2. rewrite E in E2. congruence.
        + right; left. now apply B4.
        + right; right; left. now apply B4.
        + auto 10.
        + right; right; right; right; right. exists w. split.
          { apply B5; [|now left]. apply Hkeep; [exact W1|]. right. now rewrite (file_watch_path s HI w q W1 W2 W3). }
          repeat split; try assumption. destruct W4 as [W4|[W4|[W4|[W4|[[]|[]]]]]]; auto 10. }
    assert (Hp1 : forall q x, dget q (ddel p (pend (N s))) = Some x -> dget q (pend (N s)) = Some x /\ q <> p).
    { intros q x. rewrite dget_ddel by exact Wp. destruct (eqb_spec q p) as [->|Nq]; [discriminate | auto]. }
    destruct (existsb (under d) (dkeys (ddel p (wfiles (N s))))) eqn:Eu; rewrite Ht.
    - apply Hall.
      + exact K1.
      + exact Wd.
      + now apply dwf_ddel.
      + intros e He. cbn [rm_watch queue]. apply in_app_iff. now left.
      + auto.
      + auto.
      + intros q Hq. apply Hl' in Hq as [Hq _]. now apply (log_watched s HI).
      + intros q x E. destruct (Hp1 q x E). auto.
      + intros q Hq Nq _. cbn [del_pending set_logs set_pend pend]. rewrite dmem_ddel by exact Wp. destruct (eqb_spec q p); [contradiction | exact Hq].
    - cbn [del_dir_watcher]. change (wdirs _) with (wdirs (N s)) at 1. apply dmem_some in Ld as [u Hu]. rewrite Hu.
      cbn [set_wdirs set_pend wfiles logs wdirs pend chk_time min_time seen idle].
      assert (Hno : forall q, In q l' -> dirname q <> d).
      { intros q Hq E. assert (H : existsb (under d) (dkeys (ddel p (wfiles (N s)))) = true); [|congruence]. apply existsb_exists. exists q.
        split; [apply dmem_In; now apply Hwf|]. apply Hl' in Hq as [Hq _]. destruct (ni_ne _ _ HN q Hq) as [Q1 Q2]. rewrite <- E.
        now apply under_dirname. }
      pose proof (dwf_ddel p (pend (N s)) Wp) as Wp'. apply Hall.
      + now apply KI_rm_dir.
      + now apply dwf_ddel.
      + now apply dwf_ddel.
      + intros e He. cbn [rm_watch queue]. apply in_app_iff. left. apply in_app_iff. now left.
      + intros w Hw Hor. apply rm_watches. split; [exact Hw|]. intros E. destruct (ki_wdr _ _ _ _ K1 d u Hu) as [_ Y].
        destruct (Y w Hw E) as [Y1 Y2]. destruct Hor as [Hor|Hor]; [congruence|]. rewrite Y2, dmem_ddel, eqb_refl in Hor by exact Wd. discriminate.
      + intros e. rewrite dmem_ddel by exact Wd. destruct (eqb e d); [discriminate | auto].
      + intros q Hq. rewrite dmem_ddel by exact Wd. destruct (eqb_spec (dirname q) d) as [E|_]; [now destruct (Hno q Hq)|].
        apply Hl' in Hq as [Hq _]. now apply (log_watched s HI).
      + intros q x. cbn [del_pending set_logs set_pend set_wfiles pend]. rewrite dget_ddel by exact Wp'. destruct (eqb_spec q d) as [->|Nq]; [discriminate|]. intros E.
        destruct (Hp1 q x E) as [E1 E2]. repeat split; try assumption. rewrite dmem_ddel by exact Wd. destruct (eqb_spec q d); [contradiction | auto].
      + intros q Hq Nq Hor. cbn [del_pending set_logs set_pend set_wfiles pend]. rewrite dmem_ddel by exact Wp'. destruct (eqb_spec q d) as [->|Nd].
        * exfalso. destruct Hor as [Hor|Hor].
          -- apply Hl' in Hor as [Hor _]. apply (ni_dl _ _ HN d); [|exact Hor]. apply dmem_some. eauto.
          -- rewrite dmem_ddel, eqb_refl in Hor by exact Wd. discriminate.
        * rewrite dmem_ddel by exact Wp. destruct (eqb_spec q p); [contradiction | exact Hq].
  Qed.
End Logs.

Lemma set_fk_same s : set_fk (F s) (K s) s = s.
Proof. now destruct s. Qed.

Theorem Inv_step s o : Inv s -> gentle s o -> Inv (step s o).
Proof.
  intros HI HG. unfold step. destruct o as [p|i|p|p c|q p|p|p|d|d|d|e| | |now later|p|p|b]; cbn [gentle] in HG.
  - destruct (dget p (files (F s))); [now apply Inv_write | exact HI].
  - now apply Inv_write.
  - destruct (room (F s) p && negb (isfile (F s) p)) eqn:E; [now apply Inv_create | exact HI].
  - destruct (room (F s) p) eqn:E; [now apply Inv_new | exact HI].
  - destruct (dget q (files (F s))) as [i|] eqn:Eq; [|exact HI]. destruct (room (F s) p && negb (eqb q p)) eqn:E; [|exact HI].
    apply andb_true_iff in E as [E1 E2]. apply negb_true_iff, eqb_neq in E2. now apply Inv_rename.
  - destruct (isfile (F s) p) eqn:E; [|exact HI]. apply Inv_gone; auto.
    + apply drop_file_next.
    + intros w Hw. now apply drop_file_watches in Hw as [Hw _].
    + intros w Hw Hn. now apply drop_file_watches.
    + intros e. apply drop_file_queue.
  - destruct (isfile (F s) p) eqn:E; [|exact HI]. now apply Inv_gone.
  - destruct (room (F s) d && negb (isfile (F s) d)) eqn:E; [now apply Inv_mkdir | exact HI].
  - destruct (dget d (dirs (F s))) as [i|] eqn:E; [|exact HI].
    destruct (eqb d [] || existsb (under d) (dkeys (files (F s))) || existsb (under d) (dkeys (dirs (F s)))) eqn:E1; [exact HI|].
    apply orb_false_iff in E1 as [E1 _]. apply orb_false_iff in E1 as [E1 E2]. apply eqb_neq in E1. now apply Inv_rmdir.
  - destruct (dget d (dirs (F s))) as [i|] eqn:E; [|exact HI]. destruct (eqb d []) eqn:E1; [exact HI|]. apply eqb_neq in E1.
    destruct HG as [G1 G2]. now apply Inv_movedir.
  - now apply Inv_stray.
  - destruct (todo s) as [|m r] eqn:Et; [|exact HI]. destruct (queue (K s)) as [|e q] eqn:Eq; [exact HI|].
    destruct (callback e (F s) (N s)) as [n1 t] eqn:Ec. now apply (Inv_callback s HI e q).
  - destruct (todo s) as [|m r] eqn:Et; [exact HI|]. now apply (Inv_step_micro s m r).
  - destruct (todo s) as [|m r] eqn:Et; [|exact HI]. destruct (idle (N s)); [exact HI|].
    destruct (check_pending now later (F s) (N s)) as [n1 t] eqn:Ec. now apply (Inv_check s HI now later).
  - destruct (todo s) as [|m r] eqn:Et; [|exact HI]. destruct HG as (G1 & G2 & G3). now apply Inv_add_log.
  - destruct (todo s) as [|m r] eqn:Et; [|exact HI]. now apply Inv_del_log.
  - subst b. pose proof (ni_idle _ _ (i_n s HI)) as Hid.
    assert (E : mkN (logs (N s)) (wfiles (N s)) (wdirs (N s)) (pend (N s)) (chk_time (N s)) (min_time (N s)) (seen (N s)) false = N s).
    { clear - Hid. destruct (N s). cbn in *. now rewrite Hid. }
    rewrite E. change (mkS (F s) (K s) (N s) (todo s)) with (set_fk (F s) (K s) s). now rewrite set_fk_same.
Qed.
Theorem Inv_run ops s : Inv s -> gentle_run s ops -> Inv (run s ops).
Proof.
  revert s. induction ops as [|o r IH]; intros s HI HG; [exact HI|]. destruct HG as [G1 G2]. cbn [run fold_left].
  apply IH; [now apply Inv_step | exact G2].
Qed.
