(** The file system, the watches, and that the one always knows of the other *)
From Verif Require Import Base Inotify_Model Inotify_Spec.
From Coq Require Import ZifyBool ZifyNat.
Local Open Scope string_scope.
Local Open Scope list_scope.
Local Open Scope Z_scope.

(** ** Paths *)
Lemma under_spec d p : under d p = true <-> d <> [] /\ exists x, x <> [] /\ p = d ++ x.
Proof.
  destruct d as [|a d']; [split; [discriminate | intros [H _]; congruence]|].
  set (d := a :: d'). assert (Hu : under d p = Nat.ltb (length d) (length p) && eqb (firstn (length d) p) d) by reflexivity.
  rewrite Hu. clear Hu. split.
  - intros H. apply andb_true_iff in H as [H1 H2]. apply Nat.ltb_lt in H1. apply eqb_true in H2. split; [discriminate|].
    exists (skipn (length d) p). split.
    + intros E. apply (f_equal (@length string)) in E. rewrite skipn_length in E. cbn [length] in E. lia.
    + rewrite <- H2 at 1. symmetry. apply firstn_skipn.
  - intros [_ (x & Hx & ->)]. apply andb_true_iff. split.
    + apply Nat.ltb_lt. rewrite app_length. destruct x; [congruence | cbn [length]; lia].
    + rewrite firstn_app, Nat.sub_diag, firstn_all. cbn [firstn]. rewrite app_nil_r. apply eqb_refl.
Qed.
Lemma dirname_split p : p <> [] -> p = dirname p ++ [basename p].
Proof. intros H. exact (app_removelast_last "" H). Qed.
Lemma under_dirname p : p <> [] -> dirname p <> [] -> under (dirname p) p = true.
Proof.
  intros H H1. apply under_spec. split; [exact H1|]. exists [basename p]. split; [discriminate | now apply dirname_split].
Qed.
Lemma under_in d p : p <> [] -> under d (dirname p) = true -> under d p = true.
Proof.
  intros H H1. apply under_spec in H1 as [Hd (x & Hx & E)]. apply under_spec. split; [exact Hd|].
  exists (x ++ [basename p]). split; [destruct x; discriminate|]. rewrite app_assoc, <- E. now apply dirname_split.
Qed.
Lemma dirname_neq p : p <> [] -> dirname p <> p.
Proof.
  intros H E. apply (f_equal (@length string)) in E. pose proof (dirname_split p H) as S1.
  apply (f_equal (@length string)) in S1. rewrite app_length in S1. cbn [length] in S1. lia.
Qed.

(** ** The file system *)
Record FSI (f : fsys) : Prop := {
  fs_wf : dwf (files f); fs_dwf : dwf (dirs f);
  fs_file : forall p i, dget p (files f) = Some i -> p <> [] /\ dmem (dirname p) (dirs f) = true /\ i < fresh f;
  fs_rng : forall d i, dget d (dirs f) = Some i -> i < fresh f;
  fs_inj : forall p q i, dget p (files f) = Some i -> dget q (files f) = Some i -> p = q;
  fs_dinj : forall p q i, dget p (dirs f) = Some i -> dget q (dirs f) = Some i -> p = q;
  fs_dis : forall p d i, dget p (files f) = Some i -> dget d (dirs f) <> Some i }.

Lemma room_inv f p : room f p = true -> p <> [] /\ dmem (dirname p) (dirs f) = true /\ dmem p (dirs f) = false.
Proof.
  unfold room, isdir. destruct p as [|a p]; [discriminate|]. intros H. apply andb_true_iff in H as [H1 H2]. apply negb_true_iff in H2.
  split; [discriminate|]. split; assumption.
Qed.
Lemma dmem_some {A B} {E : EqB A} k (d : dict A B) : dmem k d = true <-> exists v, dget k d = Some v.
Proof. unfold dmem. destruct (dget k d); split; [eauto | auto | discriminate | intros [v H]; discriminate]. Qed.
Lemma dmem_none {A B} {E : EqB A} k (d : dict A B) : dmem k d = false <-> dget k d = None.
Proof. unfold dmem. destruct (dget k d); split; [discriminate | discriminate | auto | auto]. Qed.

Lemma FSI_append i f : FSI f -> FSI (append i f).
Proof. intros [a b c d e g h]. constructor; assumption. Qed.
Lemma FSI_new p n f : FSI f -> room f p = true -> FSI (new_file p n f).
Proof.
  intros H Hr. apply room_inv in Hr as (Hp & Hd & _). destruct H as [a b c d e g h]. constructor; cbn [new_file files dirs fresh].
  - now apply dwf_dset.
  - exact b.
  - intros q i E. rewrite dget_dset in E. destruct (eqb_spec q p) as [->|Nq].
    + injection E as <-. repeat split; try assumption; lia.
    + destruct (c q i E) as (E1 & E2 & E3). repeat split; try assumption; lia.
  - intros q i E. specialize (d q i E). lia.
  - intros q r i E E'. rewrite dget_dset in E, E'. destruct (eqb_spec q p) as [->|Nq], (eqb_spec r p) as [->|Nr]; try reflexivity.
    + injection E as <-. destruct (c r _ E') as (_ & _ & L). lia.
    + injection E' as <-. destruct (c q _ E) as (_ & _ & L). lia.
    + now apply (e q r i).
  - exact g.
  - intros q r i E E'. rewrite dget_dset in E. destruct (eqb_spec q p) as [->|Nq].
    + injection E as <-. specialize (d r _ E'). lia.
    + now apply (h q r i E).
Qed.
Lemma FSI_del p f : FSI f -> FSI (set_files (ddel p (files f)) f).
Proof.
  intros [a b c d e g h]. constructor; cbn [set_files files dirs fresh].
  - now apply dwf_ddel.
  - exact b.
  - intros q i E. rewrite dget_ddel in E by exact a. destruct (eqb q p); [discriminate | now apply c].
  - exact d.
  - intros q r i E E'. rewrite dget_ddel in E, E' by exact a. destruct (eqb q p), (eqb r p); try discriminate. now apply (e q r i).
  - exact g.
  - intros q r i E. rewrite dget_ddel in E by exact a. destruct (eqb q p); [discriminate | now apply (h q r i)].
Qed.
Lemma FSI_rename q p i f : FSI f -> dget q (files f) = Some i -> room f p = true ->
  FSI (set_files (dset p i (ddel q (files f))) f).
Proof.
  intros [a b c d e g h] Hq Hr. apply room_inv in Hr as (Hp & Hd & _). destruct (c q i Hq) as (Q1 & Q2 & Q3).
  constructor; cbn [set_files files dirs fresh].
  - now apply dwf_dset, dwf_ddel.
  - exact b.
  - intros r j E. rewrite dget_dset, dget_ddel in E by exact a. destruct (eqb_spec r p) as [->|Nr].
    + injection E as <-. repeat split; assumption.
    + destruct (eqb r q); [discriminate | now apply c].
  - exact d.
  - intros r t j E E'. rewrite dget_dset, dget_ddel in E, E' by exact a.
    destruct (eqb_spec r p) as [->|Nr], (eqb_spec t p) as [->|Nt]; try reflexivity.
    + injection E as <-. destruct (eqb_spec t q) as [Eq|Nq]; [discriminate|]. exfalso. apply Nq. now apply (e t q i).
    + injection E' as <-. destruct (eqb_spec r q) as [Eq|Nq]; [discriminate|]. exfalso. apply Nq. now apply (e r q i).
    + destruct (eqb r q), (eqb t q); try discriminate. now apply (e r t j).
  - exact g.
  - intros r t j E. rewrite dget_dset, dget_ddel in E by exact a. destruct (eqb_spec r p) as [->|Nr].
    + injection E as <-. now apply (h q t i).
    + destruct (eqb r q); [discriminate | now apply (h r t j)].
Qed.
Lemma FSI_mkdir d f : FSI f -> FSI (mkFS (files f) (dset d (fresh f) (dirs f)) (sizes f) (fresh f + 1)).
Proof.
  intros [a b c r e g h]. constructor; cbn [files dirs fresh].
  - exact a.
  - now apply dwf_dset.
  - intros q i E. destruct (c q i E) as (E1 & E2 & E3). repeat split; [assumption | | lia].
    apply dmem_some. apply dmem_some in E2 as [v E2]. rewrite dget_dset. destruct (eqb (dirname q) d); eauto.
  - intros q i E. rewrite dget_dset in E. destruct (eqb q d); [injection E as <-; lia | specialize (r q i E); lia].
  - exact e.
  - intros q t i E E'. rewrite dget_dset in E, E'. destruct (eqb_spec q d) as [->|Nq], (eqb_spec t d) as [->|Nt]; try reflexivity.
    + injection E as <-. specialize (r t _ E'). lia.
    + injection E' as <-. specialize (r q _ E). lia.
    + now apply (g q t i).
  - intros q t i E E'. rewrite dget_dset in E'. destruct (eqb t d); [|now apply (h q t i E)].
    injection E' as <-. destruct (c q _ E) as (_ & _ & L). lia.
Qed.
Lemma FSI_rmdir d f : FSI f -> d <> [] -> existsb (under d) (dkeys (files f)) = false ->
  FSI (mkFS (files f) (ddel d (dirs f)) (sizes f) (fresh f)).
Proof.
  intros [a b c r e g h] Hd Hn. constructor; cbn [files dirs fresh].
  - exact a.
  - now apply dwf_ddel.
  - intros q i E. destruct (c q i E) as (E1 & E2 & E3). repeat split; [assumption | | assumption].
    apply dmem_some in E2 as [v E2]. apply dmem_some. exists v. rewrite dget_ddel by exact b. destruct (eqb_spec (dirname q) d) as [Ed|Nd]; [|exact E2].
    exfalso. assert (Hin : existsb (under d) (dkeys (files f)) = true); [|congruence]. apply existsb_exists. exists q.
    split; [now apply dget_key in E|]. rewrite <- Ed. apply under_dirname; [assumption | congruence].
  - intros q i E. rewrite dget_ddel in E by exact b. destruct (eqb q d); [discriminate | now apply (r q)].
  - exact e.
  - intros q t i E E'. rewrite dget_ddel in E, E' by exact b. destruct (eqb q d), (eqb t d); try discriminate. now apply (g q t i).
  - intros q t i E E'. rewrite dget_ddel in E' by exact b. destruct (eqb t d); [discriminate | now apply (h q t i E)].
Qed.
Lemma FSI_movedir d f : FSI f -> d <> [] ->
  FSI (mkFS (filter (fun x => negb (under d (fst x))) (files f))
            (filter (fun x => negb (under d (fst x) || eqb d (fst x))) (dirs f)) (sizes f) (fresh f)).
Proof.
  intros [a b c r e g h] Hd. constructor; cbn [files dirs fresh].
  - now apply dwf_filter.
  - now apply dwf_filter.
  - intros q i E. rewrite dget_filter in E by exact a. destruct (dget q (files f)) as [j|] eqn:Eq; [|discriminate]. cbn [fst] in E.
    destruct (under d q) eqn:Eu; [discriminate|]. injection E as ->. destruct (c q i Eq) as (E1 & E2 & E3). repeat split; try assumption.
    apply dmem_some in E2 as [v E2]. apply dmem_some. exists v. rewrite dget_filter by exact b. rewrite E2. cbn [fst].
    destruct (under d (dirname q)) eqn:Eu2.
    + rewrite (under_in d q E1 Eu2) in Eu. discriminate.
    + destruct (eqb_spec d (dirname q)) as [->|Nd]; [|reflexivity]. rewrite (under_dirname q E1 Hd) in Eu. discriminate.
  - intros q i E. rewrite dget_filter in E by exact b. destruct (dget q (dirs f)) as [j|] eqn:Eq; [|discriminate].
    destruct (negb _); [|discriminate]. injection E as ->. now apply (r q).
  - intros q t i E E'. rewrite dget_filter in E, E' by exact a.
    destruct (dget q (files f)) as [j|] eqn:Eq; [|discriminate]. destruct (negb _) in E; [|discriminate]. injection E as ->.
    destruct (dget t (files f)) as [j'|] eqn:Et; [|discriminate]. destruct (negb _) in E'; [|discriminate]. injection E' as ->.
    now apply (e q t i).
  - intros q t i E E'. rewrite dget_filter in E, E' by exact b.
    destruct (dget q (dirs f)) as [j|] eqn:Eq; [|discriminate]. destruct (negb _) in E; [|discriminate]. injection E as ->.
    destruct (dget t (dirs f)) as [j'|] eqn:Et; [|discriminate]. destruct (negb _) in E'; [|discriminate]. injection E' as ->.
    now apply (g q t i).
  - intros q t i E E'. rewrite dget_filter in E by exact a. rewrite dget_filter in E' by exact b.
    destruct (dget q (files f)) as [j|] eqn:Eq; [|discriminate]. destruct (negb _) in E; [|discriminate]. injection E as ->.
    destruct (dget t (dirs f)) as [j'|] eqn:Et; [|discriminate]. destruct (negb _) in E'; [|discriminate]. injection E' as ->.
    now apply (h q t i).
Qed.

(** ** The watches *)
Record KI (f : fsys) (k : kern) (wf wd : dict path Z) : Prop := {
  ki_next : 0 < next_wd k;
  ki_rng : forall w, In w (watches k) -> 0 < w_wd w < next_wd k /\ w_ino w < fresh f;
  ki_wd : forall w v, In w (watches k) -> In v (watches k) -> w_wd w = w_wd v -> w = v;
  ki_ino : forall w v, In w (watches k) -> In v (watches k) -> w_ino w = w_ino v -> w = v;
  ki_f : forall w, In w (watches k) -> w_dir w = false ->
           (forall q, dget q (files f) = Some (w_ino w) -> q = w_path w) /\ (forall d, dget d (dirs f) <> Some (w_ino w)) /\
           dget (w_path w) wf = Some (w_wd w);
  ki_d : forall w, In w (watches k) -> w_dir w = true ->
           (forall q, dget q (dirs f) = Some (w_ino w) -> q = w_path w) /\ (forall d, dget d (files f) <> Some (w_ino w)) /\
           dget (w_path w) wd = Some (w_wd w);
  ki_wf : forall p v, dget p wf = Some v -> v < next_wd k /\ forall w, In w (watches k) -> w_wd w = v -> w_dir w = false /\ w_path w = p;
  ki_wdr : forall p v, dget p wd = Some v -> v < next_wd k /\ forall w, In w (watches k) -> w_wd w = v -> w_dir w = true /\ w_path w = p }.

Lemma KI_fs f f' k k' wf wd : KI f k wf wd -> fresh f <= fresh f' -> (forall w, In w (watches k') -> In w (watches k)) ->
  next_wd k' = next_wd k ->
  (forall w q, In w (watches k') -> w_dir w = false -> dget q (files f') = Some (w_ino w) -> dget q (files f) = Some (w_ino w)) ->
  (forall w q, In w (watches k') -> w_dir w = true -> dget q (files f') <> Some (w_ino w)) ->
  (forall w q, In w (watches k') -> dget q (dirs f') = Some (w_ino w) -> dget q (dirs f) = Some (w_ino w)) ->
  KI f' k' wf wd.
Proof.
  intros [x1 x2 x3 x4 x5 x6 x7 x8] Hfr Hw Hn Hf Hfd Hd. constructor; rewrite ?Hn.
  - exact x1.
  - intros w Hi. destruct (x2 w (Hw w Hi)). split; [assumption | lia].
  - intros w v Hi Hj. now apply x3; apply Hw.
  - intros w v Hi Hj. now apply x4; apply Hw.
  - intros w Hi Hd1. destruct (x5 w (Hw w Hi) Hd1) as (Y1 & Y2 & Y3). repeat split; [| |exact Y3].
    + intros q E. apply Y1. now apply (Hf w q Hi).
    + intros q E. apply (Y2 q). now apply (Hd w q Hi).
  - intros w Hi Hd1. destruct (x6 w (Hw w Hi) Hd1) as (Y1 & Y2 & Y3). repeat split; [| |exact Y3].
    + intros q E. apply Y1. now apply (Hd w q Hi).
    + intros q. exact (Hfd w q Hi Hd1).
  - intros p v E. destruct (x7 p v E) as [L Y]. split; [exact L|]. intros w Hi. apply Y. now apply Hw.
  - intros p v E. destruct (x8 p v E) as [L Y]. split; [exact L|]. intros w Hi. apply Y. now apply Hw.
Qed.

Lemma find_none_ino i l : (forall w, In w l -> w_ino w <> i) -> List.find (fun w => w_ino w =? i) l = None.
Proof.
  intros H. destruct (List.find _ l) as [w|] eqn:E; [|reflexivity]. apply find_some in E as [E1 E2]. apply Z.eqb_eq in E2.
  now destruct (H w E1).
Qed.

(** A file is watched anew *)
Lemma KI_add_file f k wf wd p : KI f k wf wd -> FSI f -> dget p wf = None ->
  exists k' v, add_watch p (dget p (files f)) false k = (k', v) /\ KI f k' (dset p v wf) wd /\ queue k' = queue k /\
    (forall w, In w (watches k) -> In w (watches k')) /\
    (forall i, dget p (files f) = Some i -> exists w, In w (watches k') /\ w_dir w = false /\ w_ino w = i).
Proof.
  intros HK HF Hp. destruct (dget p (files f)) as [i|] eqn:Ep; cbn [add_watch].
  - assert (Hno : forall w, In w (watches k) -> w_ino w <> i).
    { intros w Hi Ei. destruct (w_dir w) eqn:Ed.
      - destruct (ki_d _ _ _ _ HK w Hi Ed) as (_ & Y & _). apply (Y p). now rewrite Ei.
      - destruct (ki_f _ _ _ _ HK w Hi Ed) as (Y & _ & Y3). rewrite <- (Y p) in Y3 by now rewrite Ei. congruence. }
    rewrite (find_none_ino i _ Hno). eexists _, _. split; [reflexivity|]. cbn [queue watches].
    destruct (fs_file f HF p i Ep) as (_ & _ & Hi). destruct HK as [x1 x2 x3 x4 x5 x6 x7 x8]. split; [|split; [reflexivity | split]].
    + constructor; cbn [watches next_wd].
      * lia.
      * intros w [Hw|[<-|[]]]%in_app_iff; [destruct (x2 w Hw); split; [lia | assumption] | cbn [w_wd w_ino]; split; [lia | exact Hi]].
      * intros w v [Hw|[<-|[]]]%in_app_iff [Hv|[<-|[]]]%in_app_iff; cbn [w_wd]; intros E; auto.
        { destruct (x2 w Hw). lia. } { destruct (x2 v Hv). lia. }
      * intros w v [Hw|[<-|[]]]%in_app_iff [Hv|[<-|[]]]%in_app_iff; cbn [w_ino]; intros E; auto.
        { now destruct (Hno w Hw). } { now destruct (Hno v Hv). }
      * intros w [Hw|[<-|[]]]%in_app_iff Hd.
        { destruct (x5 w Hw Hd) as (Y1 & Y2 & Y3). repeat split; try assumption. rewrite dget_dset.
          destruct (eqb_spec (w_path w) p) as [E|_]; [rewrite E in Y3; congruence | exact Y3]. }
        cbn [w_ino w_path w_wd]. repeat split.
        { intros q E. now apply (fs_inj f HF q p i). }
        { intros d. now apply (fs_dis f HF p d i). }
        apply dget_dset_same.
      * intros w [Hw|[<-|[]]]%in_app_iff Hd; [now apply x6 | discriminate].
      * intros q v. rewrite dget_dset. destruct (eqb_spec q p) as [->|Nq]; intros E.
        { injection E as <-. split; [lia|]. intros w [Hw|[<-|[]]]%in_app_iff Ew; [destruct (x2 w Hw); lia | split; reflexivity]. }
        destruct (x7 q v E) as [L Y]. split; [lia|]. intros w [Hw|[<-|[]]]%in_app_iff Ew; [now apply Y | cbn [w_wd] in Ew; lia].
      * intros q v E. destruct (x8 q v E) as [L Y]. split; [lia|]. intros w [Hw|[<-|[]]]%in_app_iff Ew; [now apply Y | cbn [w_wd] in Ew; lia].
    + intros w Hw. apply in_app_iff. now left.
    + intros j E. injection E as <-. eexists. split; [apply in_app_iff; right; left; reflexivity|]. split; reflexivity.
  - eexists _, _. split; [reflexivity|]. split; [|split; [reflexivity | split; [auto | discriminate]]].
    destruct HK as [x1 x2 x3 x4 x5 x6 x7 x8]. constructor; try assumption.
    + intros w Hw Hd. destruct (x5 w Hw Hd) as (Y1 & Y2 & Y3). repeat split; try assumption. rewrite dget_dset.
      destruct (eqb_spec (w_path w) p) as [E|_]; [rewrite E in Y3; congruence | exact Y3].
    + intros q v. rewrite dget_dset. destruct (eqb_spec q p) as [->|Nq]; intros E; [|now apply x7].
      injection E as <-. split; [lia|]. intros w Hw Ew. destruct (x2 w Hw). lia.
Qed.
(** A directory is watched anew *)
Lemma KI_add_dir f k wf wd p : KI f k wf wd -> FSI f -> dget p wd = None ->
  exists k' v, add_watch p (dget p (dirs f)) true k = (k', v) /\ KI f k' wf (dset p v wd) /\ queue k' = queue k /\
    (forall w, In w (watches k) -> In w (watches k')) /\
    (forall i, dget p (dirs f) = Some i -> exists w, In w (watches k') /\ w_dir w = true /\ w_ino w = i).
Proof.
  intros HK HF Hp. destruct (dget p (dirs f)) as [i|] eqn:Ep; cbn [add_watch].
  - assert (Hno : forall w, In w (watches k) -> w_ino w <> i).
    { intros w Hi Ei. destruct (w_dir w) eqn:Ed.
      - destruct (ki_d _ _ _ _ HK w Hi Ed) as (Y & _ & Y3). rewrite <- (Y p) in Y3 by now rewrite Ei. congruence.
      - destruct (ki_f _ _ _ _ HK w Hi Ed) as (_ & Y & _). apply (Y p). now rewrite Ei. }
    rewrite (find_none_ino i _ Hno). eexists _, _. split; [reflexivity|]. cbn [queue watches].
    pose proof (fs_rng f HF p i Ep) as Hi. destruct HK as [x1 x2 x3 x4 x5 x6 x7 x8]. split; [|split; [reflexivity | split]].
    + constructor; cbn [watches next_wd].
      * lia.
      * intros w [Hw|[<-|[]]]%in_app_iff; [destruct (x2 w Hw); split; [lia | assumption] | cbn [w_wd w_ino]; split; [lia | exact Hi]].
      * intros w v [Hw|[<-|[]]]%in_app_iff [Hv|[<-|[]]]%in_app_iff; cbn [w_wd]; intros E; auto.
        { destruct (x2 w Hw). lia. } { destruct (x2 v Hv). lia. }
      * intros w v [Hw|[<-|[]]]%in_app_iff [Hv|[<-|[]]]%in_app_iff; cbn [w_ino]; intros E; auto.
        { now destruct (Hno w Hw). } { now destruct (Hno v Hv). }
      * intros w [Hw|[<-|[]]]%in_app_iff Hd; [now apply x5 | discriminate].
      * intros w [Hw|[<-|[]]]%in_app_iff Hd.
        { destruct (x6 w Hw Hd) as (Y1 & Y2 & Y3). repeat split; try assumption. rewrite dget_dset.
          destruct (eqb_spec (w_path w) p) as [E|_]; [rewrite E in Y3; congruence | exact Y3]. }
        cbn [w_ino w_path w_wd]. repeat split.
        { intros q E. now apply (fs_dinj f HF q p i). }
        { intros d E. now apply (fs_dis f HF d p i). }
        apply dget_dset_same.
      * intros q v E. destruct (x7 q v E) as [L Y]. split; [lia|]. intros w [Hw|[<-|[]]]%in_app_iff Ew; [now apply Y | cbn [w_wd] in Ew; lia].
      * intros q v. rewrite dget_dset. destruct (eqb_spec q p) as [->|Nq]; intros E.
        { injection E as <-. split; [lia|]. intros w [Hw|[<-|[]]]%in_app_iff Ew; [destruct (x2 w Hw); lia | split; reflexivity]. }
        destruct (x8 q v E) as [L Y]. split; [lia|]. intros w [Hw|[<-|[]]]%in_app_iff Ew; [now apply Y | cbn [w_wd] in Ew; lia].
    + intros w Hw. apply in_app_iff. now left.
    + intros j E. injection E as <-. eexists. split; [apply in_app_iff; right; left; reflexivity|]. split; reflexivity.
  - eexists _, _. split; [reflexivity|]. split; [|split; [reflexivity | split; [auto | discriminate]]].
    destruct HK as [x1 x2 x3 x4 x5 x6 x7 x8]. constructor; try assumption.
    + intros w Hw Hd. destruct (x6 w Hw Hd) as (Y1 & Y2 & Y3). repeat split; try assumption. rewrite dget_dset.
      destruct (eqb_spec (w_path w) p) as [E|_]; [rewrite E in Y3; congruence | exact Y3].
    + intros q v. rewrite dget_dset. destruct (eqb_spec q p) as [->|Nq]; intros E; [|now apply x8].
      injection E as <-. split; [lia|]. intros w Hw Ew. destruct (x2 w Hw). lia.
Qed.
(** The watch of a log ends, and no other *)
Lemma rm_watches v k w : In w (watches (rm_watch v k)) <-> In w (watches k) /\ w_wd w <> v.
Proof. cbn [rm_watch watches]. rewrite filter_In, negb_true_iff, Z.eqb_neq. tauto. Qed.
Lemma KI_rm_file f k wf wd p v : KI f k wf wd -> dwf wf -> dget p wf = Some v -> KI f (rm_watch v k) (ddel p wf) wd.
Proof.
  intros [x1 x2 x3 x4 x5 x6 x7 x8] Hwf Hp. constructor; try exact x1.
  - intros w Hw. apply rm_watches in Hw as [Hw _]. now apply x2.
  - intros w u Hw Hu. apply rm_watches in Hw as [Hw _], Hu as [Hu _]. now apply x3.
  - intros w u Hw Hu. apply rm_watches in Hw as [Hw _], Hu as [Hu _]. now apply x4.
  - intros w Hw Hd. apply rm_watches in Hw as [Hw Hn]. destruct (x5 w Hw Hd) as (Y1 & Y2 & Y3). repeat split; try assumption.
    rewrite dget_ddel by exact Hwf. destruct (eqb_spec (w_path w) p) as [E|_]; [rewrite E in Y3; congruence | exact Y3].
  - intros w Hw Hd. apply rm_watches in Hw as [Hw Hn]. now apply x6.
  - intros q u E. rewrite dget_ddel in E by exact Hwf. destruct (eqb_spec q p) as [->|Nq]; [discriminate|].
    destruct (x7 q u E) as [L Y]. split; [exact L|]. intros w Hw. apply rm_watches in Hw as [Hw _]. now apply Y.
  - intros q u E. destruct (x8 q u E) as [L Y]. split; [exact L|]. intros w Hw. apply rm_watches in Hw as [Hw _]. now apply Y.
Qed.
Lemma KI_rm_dir f k wf wd p v : KI f k wf wd -> dwf wd -> dget p wd = Some v -> KI f (rm_watch v k) wf (ddel p wd).
Proof.
  intros [x1 x2 x3 x4 x5 x6 x7 x8] Hwf Hp. constructor; try exact x1.
  - intros w Hw. apply rm_watches in Hw as [Hw _]. now apply x2.
  - intros w u Hw Hu. apply rm_watches in Hw as [Hw _], Hu as [Hu _]. now apply x3.
  - intros w u Hw Hu. apply rm_watches in Hw as [Hw _], Hu as [Hu _]. now apply x4.
  - intros w Hw Hd. apply rm_watches in Hw as [Hw Hn]. now apply x5.
  - intros w Hw Hd. apply rm_watches in Hw as [Hw Hn]. destruct (x6 w Hw Hd) as (Y1 & Y2 & Y3). repeat split; try assumption.
    rewrite dget_ddel by exact Hwf. destruct (eqb_spec (w_path w) p) as [E|_]; [rewrite E in Y3; congruence | exact Y3].
  - intros q u E. destruct (x7 q u E) as [L Y]. split; [exact L|]. intros w Hw. apply rm_watches in Hw as [Hw _]. now apply Y.
  - intros q u E. rewrite dget_ddel in E by exact Hwf. destruct (eqb_spec q p) as [->|Nq]; [discriminate|].
    destruct (x8 q u E) as [L Y]. split; [exact L|]. intros w Hw. apply rm_watches in Hw as [Hw _]. now apply Y.
Qed.

Lemma on_In i b k w : In w (on i b k) <-> In w (watches k) /\ w_ino w = i /\ w_dir w = b.
Proof. unfold on. rewrite filter_In, andb_true_iff, Z.eqb_eq, Bool.eqb_true_iff. tauto. Qed.
