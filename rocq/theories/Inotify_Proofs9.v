(** Which directories are watched, and what becomes of a log that is removed *)
From Verif Require Import Base Inotify_Model Inotify_Spec Inotify_Proofs Inotify_Proofs2 Inotify_Proofs3 Inotify_Proofs4 Inotify_Proofs5 Inotify_Proofs6 Inotify_Proofs7 Inotify_Proofs8.
From Coq Require Import ZifyBool ZifyNat.
Local Open Scope string_scope.
Local Open Scope list_scope.
Local Open Scope Z_scope.

(** ** Directories *)
Definition wanted (n : filt) (t : list micro) (d : path) : Prop :=
  dmem d (wdirs n) = true \/ (exists r, dget d (pend n) = Some (r, Some true)) \/ In (RefreshDir d) t \/ In (AddDir d) t \/ In (Found d (Some true)) t.
Definition Own (n : filt) (t : list micro) : Prop := forall d, wanted n t d -> exists p, In p (logs n) /\ dirname p = d.
Lemma Own_sub n t m u : Own n t -> (forall p, In p (logs n) -> In p (logs m)) ->
  (forall d, wanted m u d -> wanted n t d \/ exists p, In p (logs m) /\ dirname p = d) -> Own m u.
Proof. intros H Hl Hw d Hd. destruct (Hw d Hd) as [H1|H1]; [|exact H1]. destruct (H d H1) as (p & P1 & P2). exists p. auto. Qed.

Lemma wdirs_add_file p f k n : forall d, dmem d (wdirs (snd (add_file_watcher p f (k, n)))) = true -> dmem d (wdirs n) = true \/ d = dirname p.
Proof.
  intros d. unfold add_file_watcher. destruct (add_dir_watcher (dirname p) f (k, n)) as [k1 n1] eqn:E. destruct (add_watch p _ _ k1). cbn [snd set_wfiles wdirs].
  cbn [add_dir_watcher] in E. destruct (dmem (dirname p) (wdirs n)); [injection E as <- <-; auto|]. destruct (add_watch _ _ _ _). injection E as _ <-.
  cbn [set_wdirs wdirs]. unfold dmem. rewrite dget_dset. destruct (eqb_spec d (dirname p)); auto.
Qed.
Lemma wdirs_add_dir e f k n : forall d, dmem d (wdirs (snd (add_dir_watcher e f (k, n)))) = true -> dmem d (wdirs n) = true \/ d = e.
Proof.
  intros d. cbn [add_dir_watcher]. destruct (dmem e (wdirs n)); [auto|]. destruct (add_watch _ _ _ _). cbn [snd set_wdirs wdirs].
  unfold dmem. rewrite dget_dset. destruct (eqb_spec d e); auto.
Qed.
Lemma wdirs_del_dir e k n : dwf (wdirs n) -> forall d, dmem d (wdirs (snd (del_dir_watcher e (k, n)))) = true -> dmem d (wdirs n) = true /\ d <> e.
Proof.
  intros Hwf d. cbn [del_dir_watcher]. destruct (dget e (wdirs n)) eqn:E; cbn [snd set_wdirs wdirs]; unfold dmem.
  - rewrite dget_ddel by exact Hwf. destruct (eqb_spec d e); [discriminate | auto].
  - intros H. split; [exact H|]. intros ->. rewrite E in H. discriminate.
Qed.
Lemma wdirs_del_file p k n : wdirs (snd (del_file_watcher p (k, n))) = wdirs n.
Proof. cbn [del_file_watcher]. destruct (dget p (wfiles n)); reflexivity. Qed.

Lemma Own_micro m r s : Inv s -> todo s = m :: r -> Own (N s) (todo s) -> Own (N (micro_step m s)) (todo (micro_step m s)).
Proof.
  intros HI Et H. rewrite Et in H.
  assert (Hd : forall d, m = RefreshDir d \/ m = AddDir d \/ m = Found d (Some true) -> exists p, In p (logs (N s)) /\ dirname p = d).
  { intros d E. apply H. unfold wanted. cbn [In]. destruct E as [E|[E|E]]; auto 10. }
  pose proof (ni_todo _ _ (i_n s HI)) as Hn. rewrite Et in Hn. specialize (Hn m (or_introl eq_refl)).
  unfold micro_step. rewrite Et. cbn [tl]. destruct m as [p c|p c|d|d|p|p|p b|d|p].
  - pose proof (wdirs_del_file p (K s) (N s)) as E. pose proof (pend_del_file p (K s) (N s)) as [E1 _]. pose proof (keeps_del_file p (K s) (N s)) as (E2 & _).
    destruct (del_file_watcher p (K s, N s)) as [k n]. cbn [snd N todo] in *. apply (Own_sub _ _ _ _ H); [now rewrite E2|].
    intros e. unfold wanted. rewrite E, E1. cbn [In]. intros [W|[W|[[W|W]|[[W|W]|[W|W]]]]]; try discriminate; auto 10.
  - pose proof (wdirs_add_file p (F s) (K s) (N s)) as E. pose proof (pend_add_file p (F s) (K s) (N s)) as [E1 _]. pose proof (keeps_add_file p (F s) (K s) (N s)) as (E2 & _).
    destruct (add_file_watcher p (F s) (K s, N s)) as [k n]. cbn [snd N todo] in *. apply (Own_sub _ _ _ _ H); [now rewrite E2|].
    intros e. unfold wanted. rewrite E1, E2. intros [W|[W|W]]; [|auto|].
    + destruct (E _ W) as [W'|W']; [auto|]. right. exists p. auto.
    + left. right. right. cbn [In] in *. destruct W as [[W|W]|[[W|W]|[W|W]]]; auto 10; destruct c; discriminate.
  - pose proof (wdirs_del_dir d (K s) (N s) (ni_dwf _ _ (i_n s HI))) as E. pose proof (pend_del_dir d (K s) (N s)) as [E1 _]. pose proof (keeps_del_dir d (K s) (N s)) as (E2 & _).
    destruct (del_dir_watcher d (K s, N s)) as [k n]. cbn [snd N todo] in *. apply (Own_sub _ _ _ _ H); [now rewrite E2|].
    intros e. unfold wanted. rewrite E1, E2. cbn [In]. intros [W|[W|[[W|W]|[[W|W]|[W|W]]]]]; try discriminate; auto 10.
    + apply E in W as [W _]. auto.
    + injection W as <-. right. apply Hd. auto.
  - pose proof (wdirs_add_dir d (F s) (K s) (N s)) as E. pose proof (pend_add_dir d (F s) (K s) (N s)) as [E1 _]. pose proof (keeps_add_dir d (F s) (K s) (N s)) as (E2 & _).
    destruct (add_dir_watcher d (F s) (K s, N s)) as [k n]. cbn [snd N todo] in *. apply (Own_sub _ _ _ _ H); [now rewrite E2|].
    intros e. unfold wanted. rewrite E1, E2. cbn [In]. intros [W|[W|[[W|W]|[[W|W]|[W|W]]]]]; try discriminate; auto 10.
    destruct (E _ W) as [W'|W']; [auto|]. subst e. right. apply Hd. auto.
  - destruct (isfile (F s) p); cbn [N todo].
    + apply (Own_sub _ _ _ _ H); [auto|]. intros e. unfold wanted. cbn [In]. intros [W|[W|[[W|W]|[[W|W]|[W|W]]]]]; try discriminate; auto 10.
    + destruct (add_pending_rest p (Some false) (N s)) as (a1 & a2 & a3 & _). apply (Own_sub _ _ _ _ H); [now rewrite a1|].
      intros e. unfold wanted. rewrite a3. cbn [In]. intros [W|[(x & W)|[W|[W|W]]]]; auto 10.
      rewrite add_pending_get in W. destruct (dmem p (pend (N s))); [eauto 10|]. destruct (eqb e p); [discriminate | eauto 10].
  - destruct (pend_process p (F s) (N s)) as [E1 _]. assert (E : wdirs (process_file p (F s) (N s)) = wdirs (N s) /\ logs (process_file p (F s) (N s)) = logs (N s)).
    { unfold process_file. destruct (idle (N s)), (inb p (logs (N s))), (dget p (files (F s))); auto. }
    destruct E as [E E2]. cbn [N todo]. apply (Own_sub _ _ _ _ H); [now rewrite E2|]. intros e. unfold wanted. rewrite E, E1. cbn [In]. intros [W|[W|[W|[W|W]]]]; auto 10.
  - cbn [N todo]. apply (Own_sub _ _ _ _ H); [auto|]. intros e. unfold wanted. cbn [del_pending set_pend wdirs pend].
    intros [W|[(x & W)|W]]; [auto| |].
    + rewrite dget_ddel in W by apply (ni_pwf _ _ (i_n s HI)). destruct (eqb e p); [discriminate | eauto 10].
    + rewrite !in_app_iff in W. cbn [In]. destruct b as [[|]|]; cbn [In] in W.
      * destruct W as [[[W|W]|W]|[[[W|W]|W]|[[W|W]|W]]]; try discriminate; try contradiction; auto 10. injection W as ->. auto 10.
      * destruct W as [[[W|W]|W]|[[[W|W]|W]|[[W|W]|W]]]; try discriminate; try contradiction; auto 10.
      * destruct W as [[[W|W]|W]|[[[W|W]|W]|[[W|W]|W]]]; try discriminate; try contradiction; auto 10.
  - cbn [N todo]. apply (Own_sub _ _ _ _ H); [auto|]. intros e. unfold wanted. rewrite !in_app_iff, !in_map_iff. cbn [In].
    intros [W|[W|[[(x & W & _)|W]|[[(x & W & _)|W]|[(x & W & _)|W]]]]]; try discriminate; auto 10.
  - destruct (isfile (F s) p); cbn [N todo].
    + apply (Own_sub _ _ _ _ H); [auto|]. intros e. unfold wanted. cbn [In]. intros [W|[W|[[W|W]|[[W|W]|[W|W]]]]]; try discriminate; auto 10.
    + destruct (add_pending_rest p (Some false) (N s)) as (a1 & a2 & a3 & _). apply (Own_sub _ _ _ _ H); [now rewrite a1|].
      intros e. unfold wanted. rewrite a3. cbn [In]. intros [W|[(x & W)|[W|[W|W]]]]; auto 10.
      rewrite add_pending_get in W. destruct (dmem p (pend (N s))); [eauto 10|]. destruct (eqb e p); [discriminate | eauto 10].
Qed.

Lemma flat_sub l l' : (forall p, In p l' -> In p l) -> flat l -> flat l'.
Proof. intros H Hf p q Hp Hq. apply Hf; auto. Qed.

Definition Tidy (s : state) : Prop := Own (N s) (todo s) /\ flat (logs (N s)).
Lemma Tidy_same s u : N u = N s -> todo u = todo s -> Tidy s -> Tidy u.
Proof. unfold Tidy. intros -> ->. auto. Qed.
Lemma Tidy_step s o : Inv s -> gentle s o -> match o with AddLog p => flat (p :: logs (N s)) | _ => True end -> Tidy s -> Tidy (step s o).
Proof.
  intros HI Hg Ho HT. unfold step. destruct o as [p|i|p|p c|q p|p|p|d|d|d|e| | |now later|p|p|b].
  - destruct (dget p (files (F s))); apply (Tidy_same s); auto.
  - apply (Tidy_same s); auto.
  - destruct (room (F s) p && negb (isfile (F s) p)); apply (Tidy_same s); auto.
  - destruct (room (F s) p); apply (Tidy_same s); auto.
  - destruct (dget q (files (F s))); [|exact HT]. destruct (room (F s) p && negb (eqb q p)); apply (Tidy_same s); auto.
  - destruct (isfile (F s) p); apply (Tidy_same s); auto.
  - destruct (isfile (F s) p); apply (Tidy_same s); auto.
  - destruct (room (F s) d && negb (isfile (F s) d)); apply (Tidy_same s); auto.
  - destruct (dget d (dirs (F s))); [|exact HT]. destruct (_ || _); apply (Tidy_same s); auto.
  - destruct (dget d (dirs (F s))); [|exact HT]. destruct (eqb d []); apply (Tidy_same s); auto.
  - apply (Tidy_same s); auto.
  - destruct (todo s) eqn:Et; [|exact HT]. destruct (queue (K s)) as [|e q]; [exact HT|].
    pose proof (callback_more e (F s) (N s)) as Hm. pose proof (callback_todo e (F s) (N s)) as Ht. destruct (callback e (F s) (N s)) as [n1 t]. cbn [fst snd] in *.
    destruct HT as [H Hf]. rewrite Et in H. split; cbn [N todo].
    + apply (Own_sub _ _ _ _ H); [now rewrite (m_logs _ _ Hm)|]. intros d. unfold wanted. rewrite (m_wd _ _ Hm). intros [W|[(r & W)|W]]; [auto| |].
      * destruct (m_new _ _ Hm d _ W) as [W'|[_ W']]; [eauto 10 | auto].
      * exfalso. rewrite Ht in W. destruct (negb _ && _); [destruct e|]; cbn [In] in W; intuition discriminate.
    + now rewrite (m_logs _ _ Hm).
  - destruct (todo s) as [|m r] eqn:Et; [exact HT|]. destruct HT as [H Hf]. split; [now apply (Own_micro m r)|].
    apply (flat_sub (logs (N s))); [|exact Hf]. intros p. destruct m as [p' c|p' c|d|d|p'|p'|p' b|d|p']; unfold micro_step; cbn [N].
    + pose proof (keeps_del_file p' (K s) (N s)) as (E & _). destruct (del_file_watcher p' (K s, N s)). cbn [snd N] in *. now rewrite E.
    + pose proof (keeps_add_file p' (F s) (K s) (N s)) as (E & _). destruct (add_file_watcher p' (F s) (K s, N s)). cbn [snd N] in *. now rewrite E.
    + pose proof (keeps_del_dir d (K s) (N s)) as (E & _). destruct (del_dir_watcher d (K s, N s)). cbn [snd N] in *. now rewrite E.
    + pose proof (keeps_add_dir d (F s) (K s) (N s)) as (E & _). destruct (add_dir_watcher d (F s) (K s, N s)). cbn [snd N] in *. now rewrite E.
    + destruct (isfile (F s) p'); cbn [N]; [auto|]. now rewrite (proj1 (keeps_pending p' (Some false) (N s))).
    + unfold process_file. destruct (idle (N s)), (inb p' (logs (N s))), (dget p' (files (F s))); auto.
    + auto.
    + auto.
    + destruct (isfile (F s) p'); cbn [N]; [auto|]. now rewrite (proj1 (keeps_pending p' (Some false) (N s))).
  - destruct (todo s) eqn:Et; [|exact HT]. destruct (idle (N s)); [exact HT|].
    destruct HT as [H Hf]. rewrite Et in H.
    assert (Hk : logs (fst (check_pending now later (F s) (N s))) = logs (N s) /\ wdirs (fst (check_pending now later (F s) (N s))) = wdirs (N s)).
    { unfold check_pending. destruct (pend (N s)); [auto|]. destruct (_ <? _); auto. }
    assert (Hs : forall d, (exists r, dget d (pend (fst (check_pending now later (F s) (N s)))) = Some (r, Some true)) \/ In (Found d (Some true)) (snd (check_pending now later (F s) (N s))) ->
                 exists r, dget d (pend (N s)) = Some (r, Some true)).
    { unfold check_pending. destruct (pend (N s)) as [|x0 l0] eqn:El.
      { cbn [fst snd]. rewrite El. intros d [(r & W)|[]]. discriminate. }
      rewrite <- El. clear El x0 l0. pose proof (ni_pwf _ _ (i_n s HI)) as Hwf. destruct (now <? _); cbn [fst snd set_times set_pend pend].
      - intros d [W|[]]. exact W.
      - intros d [(r & W)|W].
        + apply dget_In, in_map_iff in W as ([q [r' b']] & E & Hin). cbn [fst snd] in E. injection E as <- _ ->. exists r'. now apply In_dget.
        + apply in_map_iff in W as ([q [r' b']] & E & Hin). apply filter_In in Hin as [Hin _]. cbn [fst snd] in E. injection E as <- ->. exists r'. now apply In_dget. }
    assert (Ho2 : forall d, ~ In (RefreshDir d) (snd (check_pending now later (F s) (N s))) /\ ~ In (AddDir d) (snd (check_pending now later (F s) (N s)))).
    { unfold check_pending. destruct (pend (N s)) as [|x0 l0]; [cbn; auto|]. destruct (now <? _); [cbn; auto|]. cbn [snd]. intros d. rewrite !in_map_iff.
      split; intros (x & E & _); discriminate. }
    destruct (check_pending now later (F s) (N s)) as [n1 t]. cbn [fst snd] in *. destruct Hk as [K1 K2]. split; cbn [N todo]; [|now rewrite K1].
    apply (Own_sub _ _ _ _ H); [now rewrite K1|]. intros d. unfold wanted. rewrite K2. intros [W|[W|[W|[W|W]]]].
    + auto.
    + left. right. left. apply Hs. now left.
    + destruct (Ho2 d) as [W1 _]. now destruct (W1 W).
    + destruct (Ho2 d) as [_ W1]. now destruct (W1 W).
    + left. right. left. apply Hs. now right.
  - destruct (todo s) eqn:Et; [|exact HT]. unfold add_log. destruct (inb p (logs (N s)) || negb (isfile (F s) p)); [exact HT|].
    destruct HT as [H Hf]. rewrite Et in H. set (n0 := set_logs (logs (N s) ++ [p]) (N s)).
    pose proof (wdirs_add_file p (F s) (K s) n0) as E. pose proof (pend_add_file p (F s) (K s) n0) as [E1 _]. pose proof (keeps_add_file p (F s) (K s) n0) as (E2 & _).
    destruct (add_file_watcher p (F s) (K s, n0)) as [k n]. cbn [snd] in *.
    destruct (add_pending_rest p None (set_times (chk_time n) 0 n)) as (a1 & a2 & a3 & _).
    assert (EL : logs (add_pending p None (set_times (chk_time n) 0 n)) = logs (N s) ++ [p]) by (rewrite a1; exact E2).
    split; cbn [N todo]; rewrite ?Et.
    + apply (Own_sub _ _ _ _ H); [rewrite EL; intros q Hq; apply in_app_iff; now left|]. intros d. unfold wanted. rewrite a3, EL. cbn [set_times wdirs In].
      intros [W|[(r & W)|[[]|[[]|[]]]]].
      * destruct (E _ W) as [W'|W']; [auto|]. right. exists p. split; [apply in_app_iff; right; now left | auto].
      * rewrite add_pending_get in W. cbn [set_times pend] in W. rewrite E1 in W. cbn [n0 set_logs pend] in W.
        destruct (dmem p (pend (N s))); [eauto 10|]. destruct (eqb d p); [discriminate | eauto 10].
    + rewrite EL. apply (flat_sub (p :: logs (N s))); [|exact Ho]. intros q Hq. apply in_app_iff in Hq as [Hq|[Hq|[]]]; [now right | now left].
  - destruct (todo s) eqn:Et; [|exact HT]. unfold del_log. destruct (inb p (logs (N s))) eqn:Ep; [|exact HT].
    destruct HT as [H Hf]. rewrite Et in H. set (n0 := del_pending p (set_logs (filter (fun q => negb (eqb q p)) (logs (N s))) (N s))).
    assert (Hwf : dwf (pend (N s))) by apply (ni_pwf _ _ (i_n s HI)).
    pose proof (wdirs_del_file p (K s) n0) as E. pose proof (pend_del_file p (K s) n0) as [E1 _]. pose proof (keeps_del_file p (K s) n0) as (E2 & _).
    assert (Ew : dwf (wfiles (N s))) by apply (ni_wf _ _ (i_n s HI)).
    assert (Ef : forall q, dmem q (wfiles (snd (del_file_watcher p (K s, n0)))) = true <-> dmem q (wfiles (N s)) = true /\ q <> p).
    { intros q. cbn [del_file_watcher]. change (wfiles n0) with (wfiles (N s)). unfold dmem. destruct (dget p (wfiles (N s))) eqn:Eg; cbn [snd set_wfiles wfiles].
      - rewrite dget_ddel by exact Ew. destruct (eqb_spec q p) as [->|Nq]; [split; [discriminate | intros [_ C]; now destruct C] | tauto].
      - change (wfiles n0) with (wfiles (N s)). split; [|tauto]. intros W. split; [exact W|]. intros ->. rewrite Eg in W. discriminate. }
    destruct (del_file_watcher p (K s, n0)) as [k n]. cbn [snd] in *.
    assert (EL : logs n = filter (fun q => negb (eqb q p)) (logs (N s))) by exact E2.
    assert (Hsub : forall q, In q (logs n) <-> In q (logs (N s)) /\ q <> p).
    { intros q. rewrite EL, filter_In. destruct (eqb_spec q p); cbn; split; intros [A B]; split; auto; congruence. }
    assert (Hother : forall d q, In q (logs (N s)) -> dirname q = d -> d <> dirname p -> exists q', In q' (logs n) /\ dirname q' = d).
    { intros d q Hq Hd Hn. exists q. split; [|exact Hd]. apply Hsub. split; [exact Hq|]. intros ->. congruence. }
    destruct (existsb (under (dirname p)) (dkeys (wfiles n))) eqn:Ex.
    + split; cbn [N todo]; rewrite ?Et; [|apply (flat_sub (logs (N s))); [intros q Hq; now apply Hsub | exact Hf]].
      apply existsb_exists in Ex as (q & Hq & Hu). apply dmem_In, Ef in Hq as [Hq Nq]. apply (ni_wl _ _ (i_n s HI)) in Hq. apply inb_In in Ep.
      pose proof (Hf p q Ep Hq Hu) as Hd.
      intros d W. destruct (H d) as (x & X1 & X2).
      { unfold wanted in *. rewrite E, E1 in W. cbn [n0 del_pending set_logs set_pend wdirs pend In] in W. destruct W as [W|[(r & W)|[[]|[[]|[]]]]]; [auto|].
        rewrite dget_ddel in W by exact Hwf. destruct (eqb d p); [discriminate | eauto 10]. }
      destruct (eqb_spec d (dirname p)) as [->|Nd]; [|now apply (Hother d x)]. exists q. split; [apply Hsub; auto | exact Hd].
    + assert (Hwd : dwf (wdirs n)) by (rewrite E; apply (ni_dwf _ _ (i_n s HI))).
      pose proof (wdirs_del_dir (dirname p) k (del_pending (dirname p) n) Hwd) as G. pose proof (pend_del_dir (dirname p) k (del_pending (dirname p) n)) as [G1 _].
      pose proof (keeps_del_dir (dirname p) k (del_pending (dirname p) n)) as (G2 & _).
      destruct (del_dir_watcher (dirname p) (k, del_pending (dirname p) n)) as [k1 n1]. cbn [snd] in *. change (logs (del_pending (dirname p) n)) with (logs n) in G2.
      split; cbn [N todo]; rewrite ?Et; [|rewrite G2; apply (flat_sub (logs (N s))); [intros q Hq; now apply Hsub | exact Hf]].
      rewrite E in *. intros d W. rewrite G2.
      assert (X : wanted (N s) [] d /\ d <> dirname p).
      { unfold wanted in W. rewrite G1 in W. cbn [del_pending set_pend pend In] in W. destruct W as [W|[(r & W)|[[]|[[]|[]]]]].
        - apply G in W as [W Nd]. cbn [del_pending set_pend wdirs] in W. rewrite E in W. split; [left; exact W | exact Nd].
        - rewrite E1 in W. cbn [n0 del_pending set_logs set_pend pend] in W. rewrite dget_ddel in W by now apply dwf_ddel. destruct (eqb_spec d (dirname p)); [discriminate|].
          rewrite dget_ddel in W by exact Hwf. destruct (eqb d p); [discriminate|]. split; [right; left; eauto | auto]. }
      destruct X as [X Nd]. destruct (H d X) as (x & X1 & X2). now apply (Hother d x).
  - destruct HT as [H Hf]. split; [exact H | exact Hf].
Qed.
Lemma Tidy_run ops s : Inv s -> gentle_run s ops -> flat_run s ops -> Tidy s -> Tidy (run s ops).
Proof.
  revert s. induction ops as [|o r IH]; intros s HI Hg Hf HT; [exact HT|]. destruct Hg as [Hg Hr]. destruct Hf as [Hf Hfr]. apply IH; auto.
  - now apply Inv_step.
  - now apply Tidy_step.
Qed.
Lemma Tidy_init : Tidy init.
Proof.
  split; [|intros p q []]. intros d [W|[(r & W)|[W|[W|W]]]]; try discriminate; destruct W.
Qed.
