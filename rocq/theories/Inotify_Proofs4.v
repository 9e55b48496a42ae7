(** No log is ever lost sight of: the steps of a callback or a check *)
From Verif Require Import Base Inotify_Model Inotify_Spec Inotify_Proofs Inotify_Proofs2 Inotify_Proofs3.
From Coq Require Import ZifyBool ZifyNat.
Local Open Scope string_scope.
Local Open Scope list_scope.
Local Open Scope Z_scope.

Definition adding (m : micro) : bool := match m with AddFile _ _ | AddDir _ => true | _ => false end.
Definition todo_ok (n : filt) (m : micro) : Prop :=
  match m with
  | RefreshFile p _ | AddFile p _ | CheckFile p | ReadFile p | Scan p | Found p None | Found p (Some false) => In p (logs n)
  | RefreshDir d | AddDir d | Found d (Some true) => ~ In d (logs n)
  | ScanDir _ => True
  end.

Lemma dmem_ddel {B} p q (d : dict path B) : dwf d -> dmem q (ddel p d) = if eqb q p then false else dmem q d.
Proof. intros H. unfold dmem. rewrite dget_ddel by exact H. now destruct (eqb q p). Qed.
Lemma dmem_dset {B} p q v (d : dict path B) : dmem q (dset p v d) = if eqb q p then true else dmem q d.
Proof. unfold dmem. rewrite dget_dset. now destruct (eqb q p). Qed.

Lemma set_wdirs_same n : set_wdirs (wdirs n) n = n.
Proof. now destruct n. Qed.

Section Steps.
  Variable s : state.
  Variables (m : micro) (r : list micro).
  Hypothesis HI : Inv s.
  Hypothesis Ht : todo s = m :: r.
  Let HF := i_fs s HI.
  Let HK := i_k s HI.
  Let HN := i_n s HI.

  Lemma head_ok : todo_ok (N s) m.
  Proof. apply (ni_todo _ _ HN m). rewrite Ht. now left. Qed.
  Lemma rest_ok x : In x r -> todo_ok (N s) x /\ adding x = false.
  Proof.
    intros H. split; [apply (ni_todo _ _ HN x); rewrite Ht; now right|].
    pose proof (ni_tl _ _ HN x) as H1. rewrite Ht in H1. specialize (H1 H). now destruct x.
  Qed.
  Lemma settled p : adding m = false -> In p (logs (N s)) -> dmem p (wfiles (N s)) = true /\ dmem (dirname p) (wdirs (N s)) = true.
  Proof.
    intros Hm Hp. split.
    - destruct (ni_lw _ _ HN p Hp) as [H|(c & q & H)]; [exact H|]. rewrite Ht in H. injection H as -> _. discriminate.
    - destruct (ni_ld _ _ HN p Hp) as [H|(q & H)]; [exact H|]. rewrite Ht in H. injection H as -> _. discriminate.
  Qed.

  (** The thread's state when it is not in the middle of replacing a watch *)
  Lemma NI_next n t : adding m = false -> logs n = logs (N s) -> wfiles n = wfiles (N s) -> wdirs n = wdirs (N s) -> idle n = idle (N s) ->
    dwf (pend n) -> (forall x, In x t -> todo_ok (N s) x /\ adding x = false) ->
    (forall p v b, dget p (pend n) = Some (v, b) -> (exists v', dget p (pend (N s)) = Some (v', b)) \/ (b <> Some true /\ In p (logs (N s)))) ->
    NI n t.
  Proof.
    intros Hm e1 e2 e3 e4 Hw Hx Hp. pose proof (settled) as Hset.
    destruct HN as [a1 a2 a3 a4 a5 a6 a7 a8 a9 a10 a11 a12 a13 a14 a15].
    constructor; rewrite ?e1, ?e2, ?e3, ?e4; try assumption; auto.
    - intros p Hin. left. now apply Hset.
    - intros p c q E. subst t. destruct (Hx (AddFile p c)) as [_ H]; [now left | discriminate].
    - intros p Hin. left. now apply Hset.
    - intros p q E. subst t. destruct (Hx (AddDir p)) as [_ H]; [now left | discriminate].
    - intros x Hin. destruct (Hx x) as [_ H]; [destruct t; [destruct Hin | now right]|]. now destruct x.
    - intros x Hin. exact (proj1 (Hx x Hin)).
    - intros p v E. left. destruct (Hp p v _ E) as [(v' & E')|[E' _]]; [|congruence].
      destruct (a13 p v' E') as [H|(q & H)]; [exact H|]. rewrite Ht in H. injection H as -> _. discriminate.
    - intros p v b E Hb. destruct (Hp p v b E) as [(v' & E')|[_ E']]; [now apply (a14 p v' b) | exact E'].
  Qed.

  (** *** RefreshFile *)
  Lemma Inv_refresh_file p c : m = RefreshFile p c ->
    let kn := del_file_watcher p (K s, N s) in Inv (mkS (F s) (fst kn) (snd kn) (AddFile p c :: r)).
  Proof.
    intros Hm. assert (Hp : In p (logs (N s))) by (pose proof head_ok as H; now rewrite Hm in H).
    assert (Ha : adding m = false) by now rewrite Hm.
    destruct (settled p Ha Hp) as [Hpw Hdw]. apply dmem_some in Hpw as [v Hv].
    cbn [del_file_watcher]. rewrite Hv. cbn [fst snd]. pose proof (ni_wf _ _ HN) as Wf.
    constructor; cbn [F K N todo set_wfiles wfiles wdirs logs].
    - exact HF.
    - now apply KI_rm_file.
    - pose proof settled as Hset. pose proof rest_ok as Hrest. destruct HN as [a1 a2 a3 a4 a5 a6 a7 a8 a9 a10 a11 a12 a13 a14 a15].
      constructor; cbn [set_wfiles wfiles wdirs logs pend idle]; try assumption; auto.
      + now apply dwf_ddel.
      + intros q Hq. destruct (eqb_spec q p) as [->|Nq]; [right; eauto|]. left. rewrite dmem_ddel by exact Wf.
        destruct (eqb_spec q p); [contradiction|]. now apply Hset.
      + intros q. rewrite dmem_ddel by exact Wf. destruct (eqb q p); [discriminate | apply a6].
      + intros q c' r' E. injection E as -> _ _. rewrite dmem_ddel by exact Wf. now rewrite eqb_refl.
      + intros q Hq. left. now apply Hset.
      + intros d r' E. discriminate.
      + intros x Hx. cbn [tl] in Hx. destruct (Hrest x Hx) as [_ H]. now destruct x.
      + intros x [<-|Hx]; [exact Hp | now apply Hrest].
      + intros q v' E. left. destruct (a13 q v' E) as [H|(r' & H)]; [exact H|]. rewrite Ht, Hm in H. discriminate.
    - intros x [<-|Hx]; [exact I|]. apply (i_t s HI x). rewrite Ht. now right.
    - intros d Hd. destruct (i_d s HI d Hd) as [H|[H|[H|(w & W1 & W2 & W3)]]]; unfold DC; cbn [F K N todo set_wfiles pend rm_watch queue watches].
      + auto.
      + right; left. apply in_app_iff. now left.
      + right; right; left. rewrite Ht, Hm in H. destruct H as [H|H]; [discriminate | now right].
      + right; right; right. exists w. split; [|auto]. apply filter_In. split; [exact W1|]. apply negb_true_iff, Z.eqb_neq.
        intros E. destruct (ki_wf _ _ _ _ HK p v Hv) as [_ Y]. destruct (Y w W1 E) as [Y1 _]. congruence.
    - intros q Hq. destruct (eqb_spec q p) as [->|Nq].
      { right; right; right; left. exists (AddFile p c). split; [now left | reflexivity]. }
      pose proof (i_f s HI q Hq) as H. unfold FC, known in *. cbn [F K N todo set_wfiles pend rm_watch queue watches seen] in *.
      rewrite Ht, Hm in H. destruct H as [H|[H|[H|[(x & [<-|Hx] & Hc)|[H|(w & W1 & W2 & W3 & W4)]]]]].
      + auto.
      + right; left. apply in_app_iff. now left.
      + right; right; left. apply in_app_iff. now left.
      + cbn [covers] in Hc. congruence.
      + right; right; right; left. exists x. split; [now right | exact Hc].
      + auto 10.
      + right; right; right; right; right. exists w. split.
        { apply filter_In. split; [exact W1|]. apply negb_true_iff, Z.eqb_neq. intros E.
          destruct (ki_wf _ _ _ _ HK p v Hv) as [_ Y]. destruct (Y w W1 E) as [_ Y1]. apply Nq. rewrite <- Y1. symmetry.
          now apply (file_watch_path s HI). }
        repeat split; try assumption. destruct W4 as [W4|[W4|[W4|[W4|[[W4|W4]|[W4|W4]]]]]]; auto 10; try discriminate.
        * right; left. apply in_app_iff. now left.
        * right; right; left. apply in_app_iff. now left.
        * right; right; right; right; left. now right.
        * right; right; right; right; right. now right.
  Qed.

  (** *** AddFile *)
  Lemma Inv_add_file p c : m = AddFile p c ->
    let kn := add_file_watcher p (F s) (K s, N s) in
    Inv (mkS (F s) (fst kn) (snd kn) ((if c then CheckFile p else ReadFile p) :: r)).
  Proof.
    intros Hm. assert (Hp : In p (logs (N s))) by (pose proof head_ok as H; now rewrite Hm in H).
    assert (Hdw : dmem (dirname p) (wdirs (N s)) = true).
    { destruct (ni_ld _ _ HN p Hp) as [H|(q & H)]; [exact H|]. rewrite Ht, Hm in H. discriminate. }
    assert (Hpn : dget p (wfiles (N s)) = None).
    { apply dmem_none. apply (ni_add _ _ HN p c r). now rewrite Ht, Hm. }
    unfold add_file_watcher, add_dir_watcher. rewrite Hdw.
    destruct (KI_add_file _ _ _ _ p HK HF Hpn) as (k' & v & Ea & K1 & K2 & K3 & K4). rewrite Ea. cbn [fst snd].
    pose proof (ni_wf _ _ HN) as Wf.
    constructor; cbn [F K N todo set_wfiles wfiles wdirs logs].
    - exact HF.
    - exact K1.
    - pose proof rest_ok as Hrest. destruct HN as [a1 a2 a3 a4 a5 a6 a7 a8 a9 a10 a11 a12 a13 a14 a15].
      constructor; cbn [set_wfiles wfiles wdirs logs pend idle]; try assumption; auto.
      + now apply dwf_dset.
      + intros q Hq. left. rewrite dmem_dset. destruct (eqb_spec q p) as [->|Nq]; [reflexivity|].
        destruct (a5 q Hq) as [H|(c' & r' & H)]; [exact H|]. rewrite Ht, Hm in H. congruence.
      + intros q. rewrite dmem_dset. destruct (eqb_spec q p) as [->|Nq]; [auto | apply a6].
      + intros q c' r' E. destruct c; discriminate.
      + intros q Hq. left. destruct (a8 q Hq) as [H|(r' & H)]; [exact H|]. rewrite Ht, Hm in H. discriminate.
      + intros d r' E. destruct c; discriminate.
      + intros x Hx. destruct (Hrest x Hx) as [_ H]. now destruct x.
      + intros x [<-|Hx]; [destruct c; exact Hp | now apply Hrest].
      + intros q v' E. left. destruct (a13 q v' E) as [H|(r' & H)]; [exact H|]. rewrite Ht, Hm in H. discriminate.
    - intros x [<-|Hx]; [destruct c; exact I|]. apply (i_t s HI x). rewrite Ht. now right.
    - intros d Hd. destruct (i_d s HI d Hd) as [H|[H|[H|(w & W1 & W2 & W3)]]]; unfold DC; cbn [F K N todo set_wfiles pend]; rewrite K2.
      + auto.
      + auto.
      + right; right; left. rewrite Ht, Hm in H. destruct H as [H|H]; [discriminate | now right].
      + right; right; right. exists w. auto.
    - intros q Hq. destruct (eqb_spec q p) as [->|Nq].
      { unfold FC. cbn [F K N todo]. destruct (dget p (files (F s))) as [i|] eqn:Ei; [|auto 10].
        destruct (K4 i eq_refl) as (w & W1 & W2 & W3). right; right; right; right; right. exists w. rewrite W3. repeat split; try assumption.
        unfold known. cbn [todo]. destruct c; [right; right; right; right; right; now left | right; right; right; right; left; now left]. }
      pose proof (i_f s HI q Hq) as H. unfold FC, known in *. cbn [F K N todo set_wfiles pend seen] in *. rewrite K2.
      rewrite Ht, Hm in H. destruct H as [H|[H|[H|[(x & [<-|Hx] & Hc)|[H|(w & W1 & W2 & W3 & W4)]]]]].
      + auto.
      + auto.
      + auto.
      + cbn [covers] in Hc. congruence.
      + right; right; right; left. exists x. split; [now right | exact Hc].
      + auto 10.
      + right; right; right; right; right. exists w. split; [now apply K3|].
        repeat split; try assumption. destruct W4 as [W4|[W4|[W4|[W4|[[W4|W4]|[W4|W4]]]]]]; auto 10; try discriminate.
        * right; right; right; right; left. now right.
        * right; right; right; right; right. now right.
  Qed.

  (** *** RefreshDir *)
  Lemma Inv_refresh_dir d : m = RefreshDir d ->
    let kn := del_dir_watcher d (K s, N s) in Inv (mkS (F s) (fst kn) (snd kn) (AddDir d :: r)).
  Proof.
    intros Hm. assert (Hp : ~ In d (logs (N s))) by (pose proof head_ok as H; now rewrite Hm in H).
    assert (Ha : adding m = false) by now rewrite Hm. pose proof (ni_dwf _ _ HN) as Wf.
    assert (Hkn : exists k' n', del_dir_watcher d (K s, N s) = (k', set_wdirs n' (N s)) /\ KI (F s) k' (wfiles (N s)) n' /\
              dwf n' /\ (forall e, dmem e n' = if eqb e d then false else dmem e (wdirs (N s))) /\
              (forall e, In e (queue (K s)) -> In e (queue k')) /\
              (forall w, In w (watches (K s)) -> w_dir w = false \/ w_path w <> d -> In w (watches k'))).
    { cbn [del_dir_watcher]. destruct (dget d (wdirs (N s))) as [v|] eqn:Ev.
      - eexists _, _. split; [reflexivity|]. split; [now apply KI_rm_dir|]. split; [now apply dwf_ddel|].
        split; [intros e; now apply dmem_ddel|]. split.
        + intros e He. cbn [rm_watch queue]. apply in_app_iff. now left.
        + intros w Hw Hor. apply rm_watches. split; [exact Hw|]. intros E. destruct (ki_wdr _ _ _ _ HK d v Ev) as [_ Y].
          destruct (Y w Hw E) as [Y1 Y2]. destruct Hor; congruence.
      - exists (K s), (wdirs (N s)). split; [now rewrite set_wdirs_same|]. split; [exact HK|]. split; [exact Wf|]. split; [|auto].
        intros e. destruct (eqb_spec e d) as [->|_]; [now apply dmem_none | reflexivity]. }
    destruct Hkn as (k' & n' & E & K1 & K2 & K3 & K4 & K5). cbv zeta. rewrite E. cbn [fst snd].
    constructor; cbn [F K N todo set_wdirs wfiles wdirs logs].
    - exact HF.
    - exact K1.
    - pose proof settled as Hset. pose proof rest_ok as Hrest. destruct HN as [a1 a2 a3 a4 a5 a6 a7 a8 a9 a10 a11 a12 a13 a14 a15].
      constructor; cbn [set_wdirs wfiles wdirs logs pend idle]; try assumption; auto.
      + intros q Hq. left. now apply Hset.
      + intros q c' r' Eq. discriminate.
      + intros q Hq. rewrite K3. destruct (eqb_spec (dirname q) d) as [->|Nq]; [right; eauto|]. left. now apply Hset.
      + intros e. rewrite K3. destruct (eqb e d); [discriminate | apply a9].
      + intros e r' Eq. injection Eq as -> _. rewrite K3. now rewrite eqb_refl.
      + intros x Hx. cbn [tl] in Hx. destruct (Hrest x Hx) as [_ H]. now destruct x.
      + intros x [<-|Hx]; [exact Hp | now apply Hrest].
      + intros q v' Eq. rewrite K3. destruct (eqb_spec q d) as [->|Nq]; [right; eauto|]. left.
        destruct (a13 q v' Eq) as [H|(r' & H)]; [exact H|]. rewrite Ht, Hm in H. discriminate.
    - intros x [<-|Hx].
      + pose proof (i_t s HI (RefreshDir d)) as H. apply H. rewrite Ht, Hm. now left.
      + apply (i_t s HI x). rewrite Ht. now right.
    - intros e He. rewrite K3 in He. destruct (eqb_spec e d) as [Ee|Ne]; [discriminate|].
      destruct (i_d s HI e He) as [H|[H|[H|(w & W1 & W2 & W3)]]]; unfold DC; cbn [F K N todo set_wdirs pend].
      + auto.
      + right; left. now apply K4.
      + right; right; left. rewrite Ht, Hm in H. destruct H as [H|H]; [congruence | now right].
      + right; right; right. exists w. split; [|auto]. apply K5; [exact W1|]. right.
        intros E1. apply Ne. rewrite <- E1. symmetry. now apply (dir_watch_path s HI).
    - intros q Hq. pose proof (i_f s HI q Hq) as H. unfold FC, known in *. cbn [F K N todo set_wdirs pend seen] in *.
      rewrite Ht, Hm in H. destruct H as [H|[H|[H|[(x & [<-|Hx] & Hc)|[H|(w & W1 & W2 & W3 & W4)]]]]].
      + auto.
      + right; left. now apply K4.
      + right; right; left. now apply K4.
      + cbn [covers] in Hc. right; right; right; left. exists (AddDir d). split; [now left | exact Hc].
      + right; right; right; left. exists x. split; [now right | exact Hc].
      + auto 10.
      + right; right; right; right; right. exists w. split; [apply K5; auto|].
        repeat split; try assumption. destruct W4 as [W4|[W4|[W4|[W4|[[W4|W4]|[W4|W4]]]]]]; auto 10; try discriminate.
        * right; right; right; right; left. now right.
        * right; right; right; right; right. now right.
  Qed.

  (** *** AddDir *)
  Lemma Inv_add_dir d : m = AddDir d ->
    let kn := add_dir_watcher d (F s) (K s, N s) in Inv (mkS (F s) (fst kn) (snd kn) (ScanDir d :: r)).
  Proof.
    intros Hm. assert (Hp : ~ In d (logs (N s))) by (pose proof head_ok as H; now rewrite Hm in H).
    assert (Hdn : dmem d (wdirs (N s)) = false) by (apply (ni_addd _ _ HN d r); now rewrite Ht, Hm).
    assert (Hdd : dmem d (dirs (F s)) = true).
    { pose proof (i_t s HI (AddDir d)) as H. apply H. rewrite Ht, Hm. now left. }
    cbn [add_dir_watcher]. rewrite Hdn. apply dmem_none in Hdn. pose proof (ni_dwf _ _ HN) as Wf.
    destruct (KI_add_dir _ _ _ _ d HK HF Hdn) as (k' & v & Ea & K1 & K2 & K3 & K4). rewrite Ea. cbn [fst snd].
    constructor; cbn [F K N todo set_wdirs wfiles wdirs logs].
    - exact HF.
    - exact K1.
    - pose proof rest_ok as Hrest. destruct HN as [a1 a2 a3 a4 a5 a6 a7 a8 a9 a10 a11 a12 a13 a14 a15].
      constructor; cbn [set_wdirs wfiles wdirs logs pend idle]; try assumption; auto.
      + now apply dwf_dset.
      + intros q Hq. left. destruct (a5 q Hq) as [H|(c' & x & H)]; [exact H|]. rewrite Ht, Hm in H. discriminate.
      + intros q c' x Eq. discriminate.
      + intros q Hq. left. rewrite dmem_dset. destruct (eqb_spec (dirname q) d) as [E|Nq]; [reflexivity|].
        destruct (a8 q Hq) as [H|(x & H)]; [exact H|]. rewrite Ht, Hm in H. congruence.
      + intros e. rewrite dmem_dset. destruct (eqb_spec e d) as [->|_]; [auto | apply a9].
      + intros e x Eq. discriminate.
      + intros x Hx. destruct (Hrest x Hx) as [_ H]. now destruct x.
      + intros x [<-|Hx]; [exact I | now apply Hrest].
      + intros q v' Eq. left. rewrite dmem_dset. destruct (eqb_spec q d) as [E|Nq]; [reflexivity|].
        destruct (a13 q v' Eq) as [H|(x & H)]; [exact H|]. rewrite Ht, Hm in H. congruence.
    - intros x [<-|Hx]; [exact I|]. apply (i_t s HI x). rewrite Ht. now right.
    - intros e He. unfold DC; cbn [F K N todo set_wdirs pend]. rewrite K2. destruct (eqb_spec e d) as [->|Ne].
      { apply dmem_some in Hdd as [i Hi]. destruct (K4 i Hi) as (w & W1 & W2 & W3). right; right; right. exists w. rewrite W3. auto. }
      rewrite dmem_dset in He. destruct (eqb_spec e d); [contradiction|].
      destruct (i_d s HI e He) as [H|[H|[H|(w & W1 & W2 & W3)]]].
      + auto.
      + auto.
      + right; right; left. rewrite Ht, Hm in H. destruct H as [H|H]; [discriminate | now right].
      + right; right; right. exists w. auto.
    - intros q Hq. pose proof (i_f s HI q Hq) as H. unfold FC, known in *. cbn [F K N todo set_wdirs pend seen] in *. rewrite K2.
      rewrite Ht, Hm in H. destruct H as [H|[H|[H|[(x & [<-|Hx] & Hc)|[H|(w & W1 & W2 & W3 & W4)]]]]].
      + auto.
      + auto.
      + auto.
      + cbn [covers] in Hc. right; right; right; left. exists (ScanDir d). split; [now left | exact Hc].
      + right; right; right; left. exists x. split; [now right | exact Hc].
      + auto 10.
      + right; right; right; right; right. exists w. split; [now apply K3|].
        repeat split; try assumption. destruct W4 as [W4|[W4|[W4|[W4|[[W4|W4]|[W4|W4]]]]]]; auto 10; try discriminate.
        * right; right; right; right; left. now right.
        * right; right; right; right; right. now right.
  Qed.
End Steps.
