(** No log is ever lost sight of: changes of the file system *)
From Verif Require Import Base Inotify_Model Inotify_Spec Inotify_Proofs.
From Coq Require Import ZifyBool ZifyNat.
Local Open Scope string_scope.
Local Open Scope list_scope.
Local Open Scope Z_scope.

Record NI (n : filt) (t : list micro) : Prop := {
  ni_wf : dwf (wfiles n); ni_dwf : dwf (wdirs n); ni_pwf : dwf (pend n);
  ni_ne : forall p, In p (logs n) -> p <> [] /\ dirname p <> [];
  ni_lw : forall p, In p (logs n) -> dmem p (wfiles n) = true \/ exists c r, t = AddFile p c :: r;
  ni_wl : forall p, dmem p (wfiles n) = true -> In p (logs n);
  ni_add : forall p c r, t = AddFile p c :: r -> dmem p (wfiles n) = false;
  ni_ld : forall p, In p (logs n) -> dmem (dirname p) (wdirs n) = true \/ exists r, t = AddDir (dirname p) :: r;
  ni_dl : forall d, dmem d (wdirs n) = true -> ~ In d (logs n);
  ni_addd : forall d r, t = AddDir d :: r -> dmem d (wdirs n) = false;
  ni_tl : forall m, In m (tl t) -> match m with AddFile _ _ | AddDir _ => False | _ => True end;
  ni_todo : forall m, In m t ->
    match m with
    | RefreshFile p _ | AddFile p _ | CheckFile p | ReadFile p | Scan p | Found p None | Found p (Some false) => In p (logs n)
    | RefreshDir d | AddDir d | Found d (Some true) => ~ In d (logs n)
    | ScanDir _ => True
    end;
  ni_pd : forall p r, dget p (pend n) = Some (r, Some true) -> dmem p (wdirs n) = true \/ exists r, t = AddDir p :: r;
  ni_pf : forall p r b, dget p (pend n) = Some (r, b) -> b <> Some true -> In p (logs n);
  ni_idle : idle n = false }.

(** Directories to be looked at are there *)
Definition TI (f : fsys) (t : list micro) : Prop :=
  forall m, In m t -> match m with RefreshDir d | AddDir d | Found d (Some true) => dmem d (dirs f) = true | _ => True end.

(** A watched directory: waited for, known to be gone, about to be watched anew, or watched *)
Definition DC (s : state) (d : path) : Prop :=
  dmem d (pend (N s)) = true \/ In (EGone d) (queue (K s)) \/ In (RefreshDir d) (todo s) \/
  exists w, In w (watches (K s)) /\ w_dir w = true /\ dget d (dirs (F s)) = Some (w_ino w).
Definition covers (p : path) (m : micro) : Prop :=
  match m with
  | Found d (Some true) | RefreshDir d | AddDir d | ScanDir d => d = dirname p
  | Scan q | RefreshFile q _ | AddFile q _ => q = p
  | _ => False
  end.
(** The file of a watched log: read, or about to be *)
Definition known (s : state) (p : path) (i : Z) : Prop :=
  num i (seen (N s)) = num i (sizes (F s)) \/ In (EModify p) (queue (K s)) \/ In (EIgnored p) (queue (K s)) \/
  dmem p (pend (N s)) = true \/ In (ReadFile p) (todo s) \/ In (CheckFile p) (todo s).
Definition FC (s : state) (p : path) : Prop :=
  dmem (dirname p) (pend (N s)) = true \/ In (EGone (dirname p)) (queue (K s)) \/ In (ECreate p) (queue (K s)) \/
  (exists m, In m (todo s) /\ covers p m) \/ dget p (files (F s)) = None \/
  exists w, In w (watches (K s)) /\ w_dir w = false /\ dget p (files (F s)) = Some (w_ino w) /\ known s p (w_ino w).

Record Inv (s : state) : Prop := {
  i_fs : FSI (F s); i_k : KI (F s) (K s) (wfiles (N s)) (wdirs (N s)); i_n : NI (N s) (todo s); i_t : TI (F s) (todo s);
  i_d : forall d, dmem d (wdirs (N s)) = true -> DC s d;
  i_f : forall p, In p (logs (N s)) -> FC s p }.

Lemma Inv_init : Inv init.
Proof.
  constructor; cbn.
  - constructor; cbn; try (intros; discriminate).
    + constructor.
    + repeat constructor. auto.
    + intros d i. destruct (eqb d []); [intros [= <-]; lia | discriminate].
    + intros p q i. destruct (eqb_spec p []) as [->|], (eqb_spec q []) as [->|]; congruence.
  - constructor; cbn; try (intros; contradiction); try (intros; discriminate). lia.
  - constructor; cbn; try (intros; contradiction); try (intros; discriminate); try reflexivity; constructor.
  - intros m [].
  - intros d [=].
  - intros p [].
Qed.

(** The coverage of a log whose file stays, when nothing is lost *)
Lemma FC_fs s f k p : FC s p ->
  (forall e, In e (queue (K s)) -> In e (queue k)) ->
  (dget p (files f) = None \/
   (dget p (files f) = dget p (files (F s)) /\
    (forall w, In w (watches (K s)) -> w_dir w = false -> dget p (files (F s)) = Some (w_ino w) -> In w (watches k)) /\
    forall i, dget p (files (F s)) = Some i -> (exists w, In w (watches (K s)) /\ w_dir w = false /\ w_ino w = i) ->
              num i (sizes f) = num i (sizes (F s)) \/ In (EModify p) (queue k))) ->
  FC (set_fk f k s) p.
Proof.
  intros H Hq [Hn|(Hf & Hw & Hs)]; unfold FC; cbn [set_fk F K N todo]; [tauto|].
  destruct H as [H|[H|[H|[H|[H|(w & W1 & W2 & W3 & W4)]]]]]; auto.
  - right; right; right; right; left. congruence.
  - right; right; right; right; right. exists w. split; [now apply Hw|]. split; [exact W2|]. split; [congruence|].
    unfold known in *. cbn [set_fk F K N todo]. destruct (Hs _ W3 (ex_intro _ w (conj W1 (conj W2 eq_refl)))) as [E|E]; [|auto].
    rewrite E. destruct W4 as [W4|[W4|[W4|W4]]]; auto.
Qed.
Lemma DC_fs s f k d : DC s d ->
  (forall e, In e (queue (K s)) -> In e (queue k)) ->
  (In (EGone d) (queue k) \/
   forall w, In w (watches (K s)) -> w_dir w = true -> dget d (dirs (F s)) = Some (w_ino w) ->
             In w (watches k) /\ dget d (dirs f) = Some (w_ino w)) ->
  DC (set_fk f k s) d.
Proof.
  intros H Hq [Hn|Hw]; unfold DC; cbn [set_fk F K N todo]; [tauto|].
  destruct H as [H|[H|[H|(w & W1 & W2 & W3)]]]; auto.
  right; right; right. exists w. destruct (Hw w W1 W2 W3). auto.
Qed.

Section FS_ops.
  Variable s : state.
  Hypothesis HI : Inv s.
  Let HF := i_fs s HI.
  Let HK := i_k s HI.

  Lemma Inv_set f k : FSI f -> KI f k (wfiles (N s)) (wdirs (N s)) -> TI f (todo s) ->
    (forall d, dmem d (wdirs (N s)) = true -> DC (set_fk f k s) d) -> (forall p, In p (logs (N s)) -> FC (set_fk f k s) p) ->
    Inv (set_fk f k s).
  Proof. intros H1 H2 H3 H4 H5. constructor; cbn [set_fk F K N todo]; try assumption. apply (i_n s HI). Qed.

  Lemma file_watch_path w p : In w (watches (K s)) -> w_dir w = false -> dget p (files (F s)) = Some (w_ino w) -> w_path w = p.
  Proof. intros H1 H2 H3. destruct (ki_f _ _ _ _ HK w H1 H2) as (Y & _). symmetry. now apply Y. Qed.
  Lemma dir_watch_path w d : In w (watches (K s)) -> w_dir w = true -> dget d (dirs (F s)) = Some (w_ino w) -> w_path w = d.
  Proof. intros H1 H2 H3. destruct (ki_d _ _ _ _ HK w H1 H2) as (Y & _). symmetry. now apply Y. Qed.

  Lemma Inv_write i : Inv (set_fk (append i (F s)) (push (map (fun w => EModify (w_path w)) (on i false (K s))) (K s)) s).
  Proof.
    apply Inv_set.
    - now apply FSI_append.
    - apply (KI_fs (F s) _ (K s)); auto; cbn [append fresh]; [lia|].
      intros w q Hw Hd. now apply (ki_d _ _ _ _ HK w Hw Hd).
    - exact (i_t s HI).
    - intros d Hd. apply DC_fs; [now apply (i_d s HI) | |].
      + intros e He. cbn [push queue]. apply in_app_iff. now left.
      + right. auto.
    - intros p Hp. apply FC_fs; [now apply (i_f s HI) | |].
      + intros e He. cbn [push queue]. apply in_app_iff. now left.
      + right. split; [reflexivity|]. split; [auto|]. intros j Hj (w & W1 & W2 & W3). cbn [append sizes push queue].
        destruct (Z.eq_dec j i) as [->|Nj].
        * right. apply in_app_iff. right. apply in_map_iff. exists w. split; [|now apply on_In].
          f_equal. apply file_watch_path; [assumption | assumption | congruence].
        * left. unfold num. now rewrite dget_dset_other.
  Qed.

  (** A file comes to a path: the directory tells *)
  Lemma came_queue f p ev k e : In e (queue k) -> In e (queue (came f p ev k)).
  Proof. intros H. unfold came. destruct (dget (dirname p) (dirs f)); [|exact H]. cbn [push queue]. apply in_app_iff. now left. Qed.
  Lemma came_watches f p ev k : watches (came f p ev k) = watches k.
  Proof. unfold came. now destruct (dget (dirname p) (dirs f)). Qed.
  Lemma came_next f p ev k : next_wd (came f p ev k) = next_wd k.
  Proof. unfold came. now destruct (dget (dirname p) (dirs f)). Qed.
  Lemma came_told p k ev : p <> [] -> (forall w, In w (watches (K s)) -> w_dir w = true -> In w (watches k)) ->
    (exists w, In w (watches (K s)) /\ w_dir w = true /\ dget (dirname p) (dirs (F s)) = Some (w_ino w)) ->
    In (ev p) (queue (came (F s) p ev k)).
  Proof.
    intros Hp Hk (w & W1 & W2 & W3). unfold came. rewrite W3. cbn [push queue]. apply in_app_iff. right. apply in_map_iff. exists w.
    split; [|apply on_In; auto]. rewrite (dir_watch_path w _ W1 W2 W3). now rewrite <- dirname_split.
  Qed.
  Lemma FC_came f k p : In p (logs (N s)) -> p <> [] ->
    (forall e, In e (queue (K s)) -> In e (queue k)) ->
    (forall w, In w (watches (K s)) -> w_dir w = true -> In w (watches k)) -> FC (set_fk f (came (F s) p ECreate k) s) p.
  Proof.
    intros Hp Hne Hq Hw. unfold FC. cbn [set_fk F K N todo].
    destruct (ni_ld _ _ (i_n s HI) p Hp) as [Hd|(r & Hr)].
    - destruct (i_d s HI _ Hd) as [H|[H|[H|H]]].
      + now left.
      + right; left. apply came_queue. now apply Hq.
      + right; right; right; left. exists (RefreshDir (dirname p)). split; [exact H | reflexivity].
      + right; right; left. now apply came_told.
    - right; right; right; left. exists (AddDir (dirname p)). rewrite Hr. split; [now left | reflexivity].
  Qed.

  Lemma drop_watches i b k w : In w (watches (drop i b k)) <-> In w (watches k) /\ w_ino w <> i.
  Proof. cbn [drop watches]. rewrite filter_In, negb_true_iff, Z.eqb_neq. tauto. Qed.
  Lemma drop_queue i b k e : In e (queue k) -> In e (queue (drop i b k)).
  Proof. intros H. cbn [drop queue]. apply in_app_iff. now left. Qed.
  Lemma drop_file_watches p w : In w (watches (drop_file (F s) p (K s))) <-> In w (watches (K s)) /\ dget p (files (F s)) <> Some (w_ino w).
  Proof.
    unfold drop_file. destruct (dget p (files (F s))) as [i|] eqn:E; [|split; [intros H; split; [exact H | discriminate] | tauto]].
    rewrite drop_watches. split; intros [H1 H2]; split; try exact H1; congruence.
  Qed.
  Lemma drop_file_queue p k e : In e (queue k) -> In e (queue (drop_file (F s) p k)).
  Proof. unfold drop_file. destruct (dget p (files (F s))); [apply drop_queue | auto]. Qed.
  Lemma drop_file_next p k : next_wd (drop_file (F s) p k) = next_wd k.
  Proof. unfold drop_file. now destruct (dget p (files (F s))). Qed.
  Lemma drop_file_dirs p w : In w (watches (K s)) -> w_dir w = true -> In w (watches (drop_file (F s) p (K s))).
  Proof.
    intros H1 H2. apply drop_file_watches. split; [exact H1|]. now apply (ki_d _ _ _ _ HK w H1 H2).
  Qed.

  (** One file changes: another one comes to the path [p] (which may have been watched), or none *)
  Lemma Inv_file_change f k p :
    FSI f -> dirs f = dirs (F s) -> fresh (F s) <= fresh f -> next_wd k = next_wd (K s) ->
    (forall w, In w (watches k) -> In w (watches (K s))) ->
    (forall w, In w (watches (K s)) -> dget p (files (F s)) <> Some (w_ino w) -> In w (watches k)) ->
    (forall e, In e (queue (K s)) -> In e (queue k)) ->
    (forall w i, In w (watches k) -> dget p (files f) = Some i -> w_ino w <> i) ->
    (forall q, q <> p -> (dget q (files f) = dget q (files (F s)) /\ forall i, dget q (files f) = Some i -> num i (sizes f) = num i (sizes (F s)))
                         \/ (dget q (files f) = None)) ->
    (In p (logs (N s)) -> FC (set_fk f k s) p) -> Inv (set_fk f k s).
  Proof.
    intros H1 H2 H3 H4 H5 H6 H7 H8 H9 H10. apply Inv_set; [exact H1 | | | |].
    - apply (KI_fs (F s) _ (K s)); auto.
      + intros w q Hw Hd E. destruct (eqb_spec q p) as [->|Nq]; [now destruct (H8 w _ Hw E)|].
        destruct (H9 q Nq) as [[E1 _]|E1]; congruence.
      + intros w q Hw Hd E. destruct (eqb_spec q p) as [->|Nq]; [now destruct (H8 w _ Hw E)|].
        destruct (H9 q Nq) as [[E1 _]|E1]; [|congruence]. rewrite E1 in E. now apply (ki_d _ _ _ _ HK w (H5 w Hw) Hd) in E.
      + intros w q _. now rewrite H2.
    - unfold TI. rewrite H2. exact (i_t s HI).
    - intros d Hd. apply DC_fs; [now apply (i_d s HI) | exact H7|]. right. rewrite H2.
      intros w W1 W2 W3. split; [|exact W3]. apply H6; [exact W1|]. now apply (ki_d _ _ _ _ HK w W1 W2).
    - intros q Hq. destruct (eqb_spec q p) as [->|Nq]; [now apply H10|]. apply FC_fs; [now apply (i_f s HI) | exact H7|].
      destruct (H9 q Nq) as [[E1 E2]|E1]; [|now left]. right. split; [exact E1|]. split.
      + intros w W1 W2 W3. apply H6; [exact W1|]. intros E. apply Nq. exact (fs_inj _ HF q p _ W3 E).
      + intros i Hi _. left. apply E2. congruence.
  Qed.

  Lemma num_new p n f q i : FSI f -> q <> p -> dget q (files f) = Some i -> num i (sizes (new_file p n f)) = num i (sizes f).
  Proof.
    intros H Nq E. unfold num. cbn [new_file sizes]. rewrite dget_dset_other; [reflexivity|].
    destruct (fs_file f H q i E) as (_ & _ & L). lia.
  Qed.

  Lemma Inv_new p n : room (F s) p = true -> Inv (set_fk (new_file p n (F s)) (came (F s) p ECreate (drop_file (F s) p (K s))) s).
  Proof.
    intros Hr. pose proof (room_inv _ _ Hr) as (Hp & _). apply (Inv_file_change _ _ p).
    - now apply FSI_new.
    - reflexivity.
    - cbn [new_file fresh]. lia.
    - now rewrite came_next, drop_file_next.
    - intros w. rewrite came_watches. intros Hw. now apply drop_file_watches in Hw as [Hw _].
    - intros w Hw E. rewrite came_watches. now apply drop_file_watches.
    - intros e He. apply came_queue. now apply drop_file_queue.
    - intros w i Hw. cbn [new_file files]. rewrite dget_dset_same. intros [= <-]. rewrite came_watches in Hw.
      apply drop_file_watches in Hw as [Hw _]. destruct (ki_rng _ _ _ _ HK w Hw). lia.
    - intros q Nq. left. cbn [new_file files]. rewrite dget_dset_other by exact Nq. split; [reflexivity|].
      intros i Hi. now apply (num_new p n (F s) q).
    - intros Hl. apply FC_came; [exact Hl | exact Hp | |].
      + intros e. apply drop_file_queue.
      + intros w W1 W2. now apply drop_file_dirs.
  Qed.

  Lemma Inv_create p : room (F s) p && negb (isfile (F s) p) = true -> Inv (set_fk (new_file p 0 (F s)) (came (F s) p ECreate (K s)) s).
  Proof.
    intros H. apply andb_true_iff in H as [Hr Hn]. apply negb_true_iff, dmem_none in Hn. pose proof (Inv_new p 0 Hr) as H.
    unfold drop_file in H. now rewrite Hn in H.
  Qed.

  Lemma Inv_rename q p i : dget q (files (F s)) = Some i -> ~ In q (logs (N s)) -> room (F s) p = true -> q <> p ->
    Inv (set_fk (set_files (dset p i (ddel q (files (F s)))) (F s)) (came (F s) p ECreate (drop_file (F s) p (K s))) s).
  Proof.
    intros Hq Hl Hr Nq. pose proof (room_inv _ _ Hr) as (Hp & _). apply (Inv_file_change _ _ p).
    - now apply FSI_rename.
    - reflexivity.
    - cbn [set_files fresh]. lia.
    - now rewrite came_next, drop_file_next.
    - intros w. rewrite came_watches. intros Hw. now apply drop_file_watches in Hw as [Hw _].
    - intros w Hw E. rewrite came_watches. now apply drop_file_watches.
    - intros e He. apply came_queue. now apply drop_file_queue.
    - intros w j Hw. cbn [set_files files]. rewrite dget_dset_same. intros [= <-] E. rewrite came_watches in Hw.
      apply drop_file_watches in Hw as [Hw _]. destruct (w_dir w) eqn:Ed.
      + destruct (ki_d _ _ _ _ HK w Hw Ed) as (_ & Y & _). apply (Y q). now rewrite E.
      + destruct (ki_f _ _ _ _ HK w Hw Ed) as (Y & _ & Y3). rewrite <- (Y q) in Y3 by now rewrite E.
        apply Hl, (ni_wl _ _ (i_n s HI)). apply dmem_some. eauto.
    - intros r Nr. cbn [set_files files sizes]. rewrite dget_dset_other by exact Nr. rewrite dget_ddel by apply (fs_wf _ HF).
      destruct (eqb r q); [now right | left; now split].
    - intros Hl2. apply FC_came; [exact Hl2 | exact Hp | |].
      + intros e. apply drop_file_queue.
      + intros w W1 W2. now apply drop_file_dirs.
  Qed.

  Lemma Inv_gone p k : next_wd k = next_wd (K s) -> (forall w, In w (watches k) -> In w (watches (K s))) ->
    (forall w, In w (watches (K s)) -> dget p (files (F s)) <> Some (w_ino w) -> In w (watches k)) ->
    (forall e, In e (queue (K s)) -> In e (queue k)) -> Inv (set_fk (set_files (ddel p (files (F s))) (F s)) k s).
  Proof.
    intros H1 H2 H3 H4. assert (Hg : dget p (files (set_files (ddel p (files (F s))) (F s))) = None).
    { cbn [set_files files]. apply dget_ddel_same, (fs_wf _ HF). }
    apply (Inv_file_change _ _ p); try assumption.
    - now apply FSI_del.
    - reflexivity.
    - cbn [set_files fresh]. lia.
    - intros w i _ E. congruence.
    - intros q Nq. left. cbn [set_files files sizes]. rewrite dget_ddel_other by exact Nq. now split.
    - intros _. unfold FC. cbn [set_fk F K N todo]. tauto.
  Qed.

  Lemma TI_nil f : TI f [].
  Proof. intros m []. Qed.

  Lemma Inv_mkdir d : todo s = [] -> room (F s) d && negb (isfile (F s) d) = true ->
    Inv (set_fk (mkFS (files (F s)) (dset d (fresh (F s)) (dirs (F s))) (sizes (F s)) (fresh (F s) + 1)) (came (F s) d ECreateDir (K s)) s).
  Proof.
    intros Ht Hr. apply andb_true_iff in Hr as [Hr _]. apply room_inv in Hr as (Hne & _ & Hnd). apply dmem_none in Hnd. apply Inv_set.
    - now apply FSI_mkdir.
    - apply (KI_fs (F s) _ (K s)); auto; cbn [fresh files dirs].
      + lia.
      + intros w. now rewrite came_watches.
      + apply came_next.
      + intros w q. rewrite came_watches. intros Hw Hd. now apply (ki_d _ _ _ _ HK w Hw Hd).
      + intros w q. rewrite came_watches. intros Hw. rewrite dget_dset. destruct (eqb q d); [|auto]. intros [= E].
        destruct (ki_rng _ _ _ _ HK w Hw). lia.
    - rewrite Ht. apply TI_nil.
    - intros e He. apply DC_fs; [now apply (i_d s HI) | intros; now apply came_queue |]. right. cbn [dirs]. intros w W1 W2 W3.
      rewrite came_watches. split; [exact W1|]. rewrite dget_dset. destruct (eqb_spec e d) as [->|Ne]; [congruence | exact W3].
    - intros p Hp. apply FC_fs; [now apply (i_f s HI) | intros; now apply came_queue |]. right. cbn [files sizes]. rewrite came_watches.
      split; [reflexivity|]. split; [auto|]. intros i _ _. now left.
  Qed.

  Lemma Inv_rmdir d i : todo s = [] -> dget d (dirs (F s)) = Some i -> d <> [] -> existsb (under d) (dkeys (files (F s))) = false ->
    Inv (set_fk (mkFS (files (F s)) (ddel d (dirs (F s))) (sizes (F s)) (fresh (F s))) (drop i true (K s)) s).
  Proof.
    intros Ht Hi Hne Hno. apply Inv_set.
    - now apply FSI_rmdir.
    - apply (KI_fs (F s) _ (K s)); auto; cbn [fresh files dirs].
      + lia.
      + intros w Hw. now apply drop_watches in Hw as [Hw _].
      + intros w q Hw Hd. apply drop_watches in Hw as [Hw _]. now apply (ki_d _ _ _ _ HK w Hw Hd).
      + intros w q _. rewrite dget_ddel by apply (fs_dwf _ HF). destruct (eqb q d); [discriminate | auto].
    - rewrite Ht. apply TI_nil.
    - intros e He. destruct (eqb_spec e d) as [->|Ne].
      + destruct (i_d s HI d He) as [H|[H|[H|(w & W1 & W2 & W3)]]]; unfold DC; cbn [set_fk F K N todo].
        * auto.
        * right; left. now apply drop_queue.
        * auto.
        * right; left. cbn [drop queue]. apply in_app_iff. right. apply in_flat_map. exists w. split.
          { apply on_In. repeat split; try assumption. congruence. }
          cbn [app]. left. now rewrite (dir_watch_path w d W1 W2 W3).
      + apply DC_fs; [now apply (i_d s HI) | intros x; apply drop_queue |]. right. cbn [dirs]. intros w W1 W2 W3.
        rewrite dget_ddel_other by exact Ne. split; [|exact W3]. apply drop_watches. split; [exact W1|]. intros E. apply Ne.
        apply (fs_dinj _ HF e d i); congruence.
    - intros p Hp. apply FC_fs; [now apply (i_f s HI) | intros x; apply drop_queue |]. right. cbn [files sizes].
      split; [reflexivity|]. split; [|intros j _ _; now left]. intros w W1 W2 W3. apply drop_watches. split; [exact W1|]. intros E.
      destruct (ki_f _ _ _ _ HK w W1 W2) as (_ & Y & _). apply (Y d). congruence.
  Qed.

  Lemma Inv_movedir d i : todo s = [] -> (forall e, dmem e (wdirs (N s)) = true -> under d e = false) ->
    dget d (dirs (F s)) = Some i -> d <> [] ->
    Inv (set_fk (mkFS (filter (fun x => negb (under d (fst x))) (files (F s)))
                      (filter (fun x => negb (under d (fst x) || eqb d (fst x))) (dirs (F s))) (sizes (F s)) (fresh (F s)))
                (push (map (fun w => EGone (w_path w)) (on i true (K s))) (K s)) s).
  Proof.
    intros Ht Hb Hi Hne. pose proof (fs_wf _ HF) as Wf. pose proof (fs_dwf _ HF) as Wd.
    assert (Hf : forall q j, dget q (filter (fun x => negb (under d (fst x))) (files (F s))) = Some j -> dget q (files (F s)) = Some j).
    { intros q j. rewrite dget_filter by exact Wf. destruct (dget q (files (F s))); [|auto]. destruct (negb _); [auto | discriminate]. }
    assert (Hd : forall q j, dget q (filter (fun x => negb (under d (fst x) || eqb d (fst x))) (dirs (F s))) = Some j -> dget q (dirs (F s)) = Some j).
    { intros q j. rewrite dget_filter by exact Wd. destruct (dget q (dirs (F s))); [|auto]. destruct (negb _); [auto | discriminate]. }
    apply Inv_set.
    - now apply FSI_movedir.
    - apply (KI_fs (F s) _ (K s)); auto; cbn [fresh files dirs].
      + lia.
      + intros w q Hw Hd1 E. apply Hf in E. now apply (ki_d _ _ _ _ HK w Hw Hd1) in E.
    - rewrite Ht. apply TI_nil.
    - intros e He. destruct (eqb_spec e d) as [->|Ne].
      + destruct (i_d s HI d He) as [H|[H|[H|(w & W1 & W2 & W3)]]]; unfold DC; cbn [set_fk F K N todo push queue].
        * auto.
        * right; left. apply in_app_iff. now left.
        * auto.
        * right; left. apply in_app_iff. right. apply in_map_iff. exists w. split.
          { now rewrite (dir_watch_path w d W1 W2 W3). }
          apply on_In. repeat split; try assumption. congruence.
      + apply DC_fs; [now apply (i_d s HI) | intros x Hx; cbn [push queue]; apply in_app_iff; now left |]. right. cbn [dirs push watches].
        intros w W1 W2 W3. split; [exact W1|]. rewrite dget_filter by exact Wd. rewrite W3. cbn [fst]. rewrite (Hb e He).
        destruct (eqb_spec d e) as [->|_]; [congruence | reflexivity].
    - intros p Hp. apply FC_fs; [now apply (i_f s HI) | intros x Hx; cbn [push queue]; apply in_app_iff; now left |].
      cbn [files sizes push watches]. rewrite dget_filter by exact Wf. destruct (dget p (files (F s))) as [j|] eqn:E; [|now left].
      cbn [fst]. destruct (under d p); [now left | right]. split; [reflexivity|]. split; [auto|]. intros x _ _. now left.
  Qed.

  Lemma Inv_stray e : Inv (set_fk (F s) (push [e] (K s)) s).
  Proof.
    apply Inv_set; try assumption.
    - apply (KI_fs (F s) _ (K s)); auto; [lia|]. intros w q Hw Hd. now apply (ki_d _ _ _ _ HK w Hw Hd).
    - exact (i_t s HI).
    - intros d Hd. apply DC_fs; [now apply (i_d s HI) | intros x Hx; cbn [push queue]; apply in_app_iff; now left |]. right. auto.
    - intros p Hp. apply FC_fs; [now apply (i_f s HI) | intros x Hx; cbn [push queue]; apply in_app_iff; now left |]. right.
      split; [reflexivity|]. split; [auto|]. intros i _ _. now left.
  Qed.
End FS_ops.
