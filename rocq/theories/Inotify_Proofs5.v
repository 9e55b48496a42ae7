(** No log is ever lost sight of: the other steps, adding and removing logs, and whole runs *)
From Verif Require Import Base Inotify_Model Inotify_Spec Inotify_Proofs Inotify_Proofs2 Inotify_Proofs3 Inotify_Proofs4.
From Coq Require Import ZifyBool ZifyNat.
Local Open Scope string_scope.
Local Open Scope list_scope.
Local Open Scope Z_scope.

Section Plain.
  Variable s : state.
  Variables (m : micro) (r : list micro).
  Hypothesis HI : Inv s.
  Hypothesis Ht : todo s = m :: r.
  Let HF := i_fs s HI.
  Let HK := i_k s HI.
  Let HN := i_n s HI.

  Lemma Inv_plain n t : adding m = false -> (forall d, m <> RefreshDir d) ->
    logs n = logs (N s) -> wfiles n = wfiles (N s) -> wdirs n = wdirs (N s) -> idle n = idle (N s) ->
    dwf (pend n) -> (forall x, In x t -> In x r \/ (todo_ok (N s) x /\ adding x = false /\ TI (F s) [x])) ->
    (forall p v b, dget p (pend n) = Some (v, b) -> (exists v', dget p (pend (N s)) = Some (v', b)) \/ (b <> Some true /\ In p (logs (N s)))) ->
    (forall i, num i (seen n) = num i (seen (N s)) \/ num i (seen n) = num i (sizes (F s))) ->
    (forall x, In x r -> In x t) ->
    (forall d, dmem d (wdirs (N s)) = true -> dmem d (pend (N s)) = true -> dmem d (pend n) = true \/ In (RefreshDir d) t) ->
    (forall q, In q (logs (N s)) -> covers q m -> (exists x, In x t /\ covers q x) \/ dget q (files (F s)) = None) ->
    (forall q, In q (logs (N s)) -> dmem q (pend (N s)) = true -> dmem q (pend n) = true \/ In (ReadFile q) t \/ exists x, In x t /\ covers q x) ->
    (forall q, In q (logs (N s)) -> m = ReadFile q \/ m = CheckFile q ->
       In (ReadFile q) t \/ dget q (files (F s)) = None \/ (forall i, dget q (files (F s)) = Some i -> num i (seen n) = num i (sizes (F s)))) ->
    Inv (mkS (F s) (K s) n t).
  Proof.
    intros Hm Hnr e1 e2 e3 e4 Hw Hx Hp Hs Hr Hd Hc Hk Hh. constructor; cbn [F K N todo].
    - exact HF.
    - rewrite e2, e3. exact HK.
    - apply (NI_next s m r HI Ht); try assumption. intros x Hin. destruct (Hx x Hin) as [H|(H1 & H2 & _)]; [|auto].
      now apply (rest_ok s m r HI Ht).
    - intros x Hin. destruct (Hx x Hin) as [H|(_ & _ & H)]; [|apply H; now left]. apply (i_t s HI x). rewrite Ht. now right.
    - intros d Hdd. rewrite e3 in Hdd. destruct (i_d s HI d Hdd) as [H|[H|[H|H]]]; unfold DC; cbn [F K N todo].
      + destruct (Hd d Hdd H); auto.
      + auto.
      + rewrite Ht in H. destruct H as [H|H]; [now destruct (Hnr d) | auto].
      + auto.
    - intros q Hq. rewrite e1 in Hq. pose proof (i_f s HI q Hq) as H. unfold FC, known in *. cbn [F K N todo] in *. rewrite Ht in H.
      destruct H as [H|[H|[H|[(x & [<-|Hx1] & Hc1)|[H|(w & W1 & W2 & W3 & W4)]]]]].
      + destruct (settled s m r HI Ht q Hm Hq) as [_ Hdw]. destruct (Hd _ Hdw H) as [H1|H1]; [auto|].
        right; right; right; left. exists (RefreshDir (dirname q)). split; [exact H1 | reflexivity].
      + auto.
      + auto.
      + destruct (Hc q Hq Hc1) as [H1|H1]; auto 10.
      + right; right; right; left. exists x. auto.
      + auto 10.
      + assert (Hw1 : forall P : Prop, (P -> known (mkS (F s) (K s) n t) q (w_ino w)) -> P -> FC (mkS (F s) (K s) n t) q).
        { intros P H1 H2. unfold FC. right; right; right; right; right. exists w. repeat split; try assumption. now apply H1. }
        unfold FC, known in Hw1. cbn [F K N todo] in Hw1.
        destruct W4 as [W4|[W4|[W4|[W4|[[W4|W4]|[W4|W4]]]]]].
        * apply (Hw1 True); [|exact I]. intros _. left. destruct (Hs (w_ino w)) as [E|E]; congruence.
        * apply (Hw1 True); auto.
        * apply (Hw1 True); auto 10.
        * destruct (Hk q Hq W4) as [H1|[H1|H1]]; [apply (Hw1 True); auto 10 | apply (Hw1 True); auto 10 | auto 10].
        * destruct (Hh q Hq (or_introl W4)) as [H1|[H1|H1]]; [apply (Hw1 True); auto 10 | auto 10 | apply (Hw1 True); auto].
        * apply (Hw1 True); [|exact I]. intros _. right; right; right; right; left. now apply Hr.
        * destruct (Hh q Hq (or_intror W4)) as [H1|[H1|H1]]; [apply (Hw1 True); auto 10 | auto 10 | apply (Hw1 True); auto].
        * apply (Hw1 True); [|exact I]. intros _. right; right; right; right; right. now apply Hr.
  Qed.

  Lemma pend_same : forall p v b, dget p (pend (N s)) = Some (v, b) -> (exists v', dget p (pend (N s)) = Some (v', b)) \/ (b <> Some true /\ In p (logs (N s))).
  Proof. eauto. Qed.
  Lemma pend_added p : In p (logs (N s)) -> forall q v b, dget q (pend (add_pending p (Some false) (N s))) = Some (v, b) ->
    (exists v', dget q (pend (N s)) = Some (v', b)) \/ (b <> Some true /\ In q (logs (N s))).
  Proof.
    intros Hp q v b. rewrite add_pending_get. destruct (dmem p (pend (N s))); [eauto|]. destruct (eqb_spec q p) as [->|_]; [|eauto].
    intros [= <- <-]. right. split; [discriminate | exact Hp].
  Qed.

  Lemma Inv_check_file p : m = CheckFile p ->
    Inv (if isfile (F s) p then mkS (F s) (K s) (N s) (ReadFile p :: r) else mkS (F s) (K s) (add_pending p (Some false) (N s)) r).
  Proof.
    intros Hm. assert (Hp : In p (logs (N s))) by (pose proof (head_ok s m r HI Ht) as H; now rewrite Hm in H).
    destruct (isfile (F s) p) eqn:Ef.
    - apply Inv_plain; rewrite ?Hm; auto; try discriminate.
      + apply (ni_pwf _ _ HN).
      + intros x [<-|Hx]; [right | now left]. split; [exact Hp|]. split; [reflexivity | intros x [<-|[]]; exact I].
      + apply pend_same.
      + intros x Hx. now right.
      + intros q Hq [].
      + intros q Hq [E|E]; [discriminate|]. injection E as ->. left. now left.
    - destruct (add_pending_rest p (Some false) (N s)) as (a1 & a2 & a3 & a4 & a5 & _).
      apply Inv_plain; rewrite ?Hm; auto; try discriminate.
      + apply add_pending_wf, (ni_pwf _ _ HN).
      + now apply pend_added.
      + intros i. left. now rewrite a4.
      + intros d _ H. left. now apply add_pending_mem.
      + intros q Hq [].
      + intros q Hq H. left. now apply add_pending_mem.
      + intros q Hq [E|E]; [discriminate|]. injection E as ->. right; left. now apply dmem_none.
  Qed.
  Lemma Inv_scan p : m = Scan p ->
    Inv (if isfile (F s) p then mkS (F s) (K s) (N s) (RefreshFile p false :: r) else mkS (F s) (K s) (add_pending p (Some false) (N s)) r).
  Proof.
    intros Hm. assert (Hp : In p (logs (N s))) by (pose proof (head_ok s m r HI Ht) as H; now rewrite Hm in H).
    destruct (isfile (F s) p) eqn:Ef.
    - apply Inv_plain; rewrite ?Hm; auto; try discriminate.
      + apply (ni_pwf _ _ HN).
      + intros x [<-|Hx]; [right | now left]. split; [exact Hp|]. split; [reflexivity | intros x [<-|[]]; exact I].
      + apply pend_same.
      + intros x Hx. now right.
      + intros q Hq E. cbn [covers] in E. subst q. left. exists (RefreshFile p false). split; [now left | reflexivity].
      + intros q Hq [E|E]; discriminate.
    - destruct (add_pending_rest p (Some false) (N s)) as (a1 & a2 & a3 & a4 & a5 & _).
      apply Inv_plain; rewrite ?Hm; auto; try discriminate.
      + apply add_pending_wf, (ni_pwf _ _ HN).
      + now apply pend_added.
      + intros i. left. now rewrite a4.
      + intros d _ H. left. now apply add_pending_mem.
      + intros q Hq E. cbn [covers] in E. subst q. right. now apply dmem_none.
      + intros q Hq H. left. now apply add_pending_mem.
      + intros q Hq [E|E]; discriminate.
  Qed.
  Lemma Inv_scan_dir d : m = ScanDir d -> Inv (mkS (F s) (K s) (N s) (map Scan (filter (under d) (dkeys (wfiles (N s)))) ++ r)).
  Proof.
    intros Hm. apply Inv_plain; rewrite ?Hm; auto; try discriminate.
    - apply (ni_pwf _ _ HN).
    - intros x [Hx|Hx]%in_app_iff; [right | now left]. apply in_map_iff in Hx as (q & <- & Hq). apply filter_In in Hq as [Hq _].
      split; [|split; [reflexivity | intros x [<-|[]]; exact I]]. cbn [todo_ok]. apply (ni_wl _ _ HN). now apply dmem_In.
    - apply pend_same.
    - intros x Hx. apply in_app_iff. now right.
    - intros q Hq E. cbn [covers] in E. left. exists (Scan q). split; [|reflexivity]. apply in_app_iff. left. apply in_map.
      apply filter_In. split.
      + apply dmem_In. apply (settled s m r HI Ht q); [now rewrite Hm | exact Hq].
      + rewrite E. destruct (ni_ne _ _ HN q Hq). now apply under_dirname.
    - intros q Hq [E|E]; discriminate.
  Qed.
  Lemma num_dset i j v d : num i (dset j v d) = if i =? j then v else num i d.
  Proof. unfold num. rewrite dget_dset. change (eqb i j) with (i =? j). now destruct (i =? j). Qed.
  Lemma Inv_read p : m = ReadFile p -> Inv (mkS (F s) (K s) (process_file p (F s) (N s)) r).
  Proof.
    intros Hm. assert (Hp : In p (logs (N s))) by (pose proof (head_ok s m r HI Ht) as H; now rewrite Hm in H).
    unfold process_file. rewrite (ni_idle _ _ HN). apply inb_In in Hp as Hpb. rewrite Hpb. cbn [negb].
    destruct (dget p (files (F s))) as [i|] eqn:Ei.
    - apply Inv_plain; rewrite ?Hm; cbn [logs wfiles wdirs pend idle seen]; auto; try discriminate.
      + symmetry. apply (ni_idle _ _ HN).
      + apply (ni_pwf _ _ HN).
      + apply pend_same.
      + intros j. rewrite num_dset. destruct (Z.eqb_spec j i) as [->|_]; auto.
      + intros q Hq [].
      + intros q Hq [E|E]; [|discriminate]. injection E as ->. right; right. intros j Hj. rewrite num_dset.
        assert (E : j = i) by congruence. rewrite E, Z.eqb_refl. reflexivity.
    - apply Inv_plain; rewrite ?Hm; auto; try discriminate.
      + apply (ni_pwf _ _ HN).
      + apply pend_same.
      + intros q Hq [].
      + intros q Hq [E|E]; [|discriminate]. injection E as ->. auto.
  Qed.
  Lemma Inv_found p b : m = Found p b ->
    Inv (mkS (F s) (K s) (del_pending p (N s))
          (match b with None => [ReadFile p] | Some false => [RefreshFile p false] | Some true => [RefreshDir p] end ++ r)).
  Proof.
    intros Hm. pose proof (head_ok s m r HI Ht) as Hok. rewrite Hm in Hok. pose proof (ni_pwf _ _ HN) as Wp.
    pose proof (i_t s HI m) as HT. rewrite Ht in HT. specialize (HT (or_introl eq_refl)). rewrite Hm in HT.
    assert (Hlog : b <> Some true -> In p (logs (N s))) by (destruct b as [[|]|]; [congruence | auto | auto]).
    apply Inv_plain; rewrite ?Hm; cbn [del_pending set_pend logs wfiles wdirs pend idle seen]; auto; try discriminate.
    - now apply dwf_ddel.
    - intros x [Hx|Hx]%in_app_iff; [right | now left]. destruct b as [[|]|]; destruct Hx as [<-|[]]; cbn [todo_ok adding].
      + split; [exact Hok|]. split; [reflexivity|]. intros x [<-|[]]. exact HT.
      + split; [exact Hok|]. split; [reflexivity|]. intros x [<-|[]]. exact I.
      + split; [exact Hok|]. split; [reflexivity|]. intros x [<-|[]]. exact I.
    - intros q v x E. rewrite dget_ddel in E by exact Wp. destruct (eqb q p); [discriminate | eauto].
    - intros x Hx. apply in_app_iff. now right.
    - intros d Hd E. rewrite dmem_ddel by exact Wp. destruct (eqb_spec d p) as [->|_]; [|auto]. right.
      destruct b as [[|]|]; [now left | |]; destruct (ni_dl _ _ HN p Hd); now apply Hlog.
    - intros q Hq E. cbn [covers] in E. destruct b as [[|]|]; [|destruct E|destruct E]. left. exists (RefreshDir p). split; [now left | exact E].
    - intros q Hq E. rewrite dmem_ddel by exact Wp. destruct (eqb_spec q p) as [->|_]; [|auto]. destruct b as [[|]|].
      + contradiction.
      + right; right. exists (RefreshFile p false). split; [now left | reflexivity].
      + right; left. now left.
    - intros q Hq [E|E]; discriminate.
  Qed.
End Plain.

Lemma Inv_step_micro s m r : Inv s -> todo s = m :: r -> Inv (micro_step m s).
Proof.
  intros HI Ht. unfold micro_step. rewrite Ht. cbn [tl]. destruct m as [p c|p c|d|d|p|p|p b|d|p].
  - pose proof (Inv_refresh_file s _ r HI Ht p c eq_refl) as H. cbv zeta in H. now destruct (del_file_watcher p (K s, N s)).
  - pose proof (Inv_add_file s _ r HI Ht p c eq_refl) as H. cbv zeta in H. now destruct (add_file_watcher p (F s) (K s, N s)).
  - pose proof (Inv_refresh_dir s _ r HI Ht d eq_refl) as H. cbv zeta in H. now destruct (del_dir_watcher d (K s, N s)).
  - pose proof (Inv_add_dir s _ r HI Ht d eq_refl) as H. cbv zeta in H. now destruct (add_dir_watcher d (F s) (K s, N s)).
  - exact (Inv_check_file s _ r HI Ht p eq_refl).
  - exact (Inv_read s _ r HI Ht p eq_refl).
  - exact (Inv_found s _ r HI Ht p b eq_refl).
  - exact (Inv_scan_dir s _ r HI Ht d eq_refl).
  - exact (Inv_scan s _ r HI Ht p eq_refl).
Qed.
