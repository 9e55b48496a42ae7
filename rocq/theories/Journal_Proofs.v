From Coq Require Import ZArith List Bool Lia ZifyBool.
From Verif Require Import Base Text Journal_Model Journal_Spec.
Import ListNotations.
Local Open Scope Z_scope.

(** ** Matches *)
Definition filled (g : list text) : bool := match g with [] => false | _ => true end.
Definition good (ms : list (list text)) (r : matcher) : Prop := m_cur r = [] /\ m_done r = filter filled ms.
Definition all_valid (valid : text -> bool) (ms : list (list text)) : Prop := forall g, In g ms -> forall t, In t g -> valid t = true.

Lemma add_elements_ok valid g : (forall t, In t g -> valid t = true) -> forall m, add_elements valid g m = (true, mkM (m_done m) (m_cur m ++ g)).
Proof.
  induction g as [|t g IH]; intros H m; cbn [add_elements].
  - rewrite app_nil_r. destruct m. reflexivity.
  - rewrite (H t) by now left. rewrite IH by (intros u Hu; apply H; now right). unfold add_term. cbn [m_done m_cur]. rewrite <- app_assoc. reflexivity.
Qed.
Lemma add_elements_bad valid g : (exists t, In t g /\ valid t = false) -> forall m, fst (add_elements valid g m) = false.
Proof.
  induction g as [|t g IH]; intros (u & Hu & E) m; [destruct Hu|]. cbn [add_elements]. destruct (valid t) eqn:V; [|reflexivity].
  apply IH. destruct Hu as [->|Hu]; [congruence|]. eauto.
Qed.
Lemma disj_nil d : add_disjunction (mkM d []) = mkM d [].
Proof. reflexivity. Qed.
Lemma add_groups_ok valid gs : all_valid valid gs -> forall d, add_groups valid gs (mkM d []) = (true, mkM (d ++ filter filled gs) []).
Proof.
  induction gs as [|g gs IH]; intros H d; cbn [add_groups filter].
  - rewrite app_nil_r. reflexivity.
  - rewrite add_elements_ok by (apply H; now left). cbn [m_done m_cur app]. destruct g as [|t g]; cbn [filled].
    + rewrite disj_nil. apply IH. intros h Hh. apply H. now right.
    + unfold add_disjunction. cbn [m_cur m_done]. rewrite IH by (intros h Hh; apply H; now right). rewrite <- app_assoc. reflexivity.
Qed.
Lemma add_groups_bad valid gs : (exists g t, In g gs /\ In t g /\ valid t = false) -> forall m, fst (add_groups valid gs m) = false.
Proof.
  induction gs as [|g gs IH]; intros (h & t & Hh & Ht & E) m; [destruct Hh|]. cbn [add_groups].
  destruct (add_elements valid g m) as ([|], m') eqn:A; [|reflexivity]. apply IH.
  destruct Hh as [->|Hh]; [|eauto]. pose proof (add_elements_bad valid h (ex_intro _ t (conj Ht E)) m). rewrite A in H. discriminate H.
Qed.

Lemma add_matches_ok valid gs ms r : good ms r -> all_valid valid gs ->
  exists r', add_matches valid gs ms r = (true, (ms ++ gs, r')) /\ good (ms ++ gs) r'.
Proof.
  intros (Gc & Gd) H. unfold add_matches.
  assert ((match ms with [] => r | _ => add_disjunction r end) = mkM (filter filled ms) []) as ->.
  { destruct r as (d, c). cbn [m_cur m_done] in *. subst. destruct ms; reflexivity. }
  rewrite add_groups_ok by exact H. eexists. split; [reflexivity|]. split; [reflexivity|]. cbn [m_done]. now rewrite filter_app.
Qed.
Lemma add_matches_bad valid gs ms r : (exists g t, In g gs /\ In t g /\ valid t = false) ->
  exists r', add_matches valid gs ms r = (false, (ms, r')).
Proof.
  intros H. unfold add_matches. pose proof (add_groups_bad valid gs H (match ms with [] => r | _ => add_disjunction r end)) as B.
  destruct (add_groups valid gs _) as ([|], m); [discriminate B|]. eauto.
Qed.
Lemma reset_ok valid ms : all_valid valid ms -> exists r', reset_matches valid ms = (true, (ms, r')) /\ good ms r'.
Proof.
  intros H. unfold reset_matches. destruct (add_matches_ok valid ms [] flush_matches) as (r' & E & G); [split; reflexivity|exact H|].
  cbn [app] in *. eauto.
Qed.
Lemma valid_dec valid gs : all_valid valid gs \/ exists g t, In g gs /\ In t g /\ valid t = false.
Proof.
  destruct (forallb (forallb valid) gs) eqn:E.
  - left. intros g Hg t Ht. rewrite forallb_forall in E. specialize (E g Hg). rewrite forallb_forall in E. auto.
  - right. assert (exists g, In g gs /\ forallb valid g = false) as (g & Hg & F).
    { clear - E. induction gs as [|g gs IH]; [discriminate E|]. cbn [forallb] in E. destruct (forallb valid g) eqn:F.
      - destruct (IH E) as (h & Hh & Fh). exists h. split; [now right|exact Fh].
      - exists g. split; [now left|exact F]. }
    exists g. assert (exists t, In t g /\ valid t = false) as (t & Ht & Vt).
    { clear - F. induction g as [|t g IH]; [discriminate F|]. cbn [forallb] in F. destruct (valid t) eqn:V.
      - destruct (IH F) as (h & Hh & Fh). exists h. split; [now right|exact Fh].
      - exists t. split; [now left|exact V]. }
    eauto.
Qed.

Lemma alternatives_app m : forall cur, exists g gs, alternatives m cur = (cur ++ g) :: gs.
Proof.
  induction m as [|t m IH]; intros cur; cbn [alternatives].
  - exists [], []. now rewrite app_nil_r.
  - destruct (eqb t ["+"%char]).
    + exists [], (alternatives m []). now rewrite app_nil_r.
    + destruct (IH (cur ++ [t])) as (g & gs & ->). exists (t :: g), gs. rewrite <- app_assoc. reflexivity.
Qed.
Lemma alternatives_spec m : forall cur, (forall t, In t cur -> t <> plus) ->
  with_plus (alternatives m cur) = cur ++ m /\ (forall g, In g (alternatives m cur) -> ~ In plus g).
Proof.
  induction m as [|t m IH]; intros cur Hc; cbn [alternatives].
  - split; [cbn [with_plus]; now rewrite app_nil_r|]. intros g [<-|[]] H. exact (Hc _ H eq_refl).
  - destruct (eqb_spec t ["+"%char]) as [->|N].
    + destruct (IH []) as (W & P); [intros u []|]. split.
      * destruct (alternatives_app m []) as (g & gs & E). rewrite E in *. cbn [with_plus] in *. rewrite W. reflexivity.
      * intros g [<-|Hg] H; [exact (Hc _ H eq_refl)|exact (P g Hg H)].
    + destruct (IH (cur ++ [t])) as (W & P).
      { intros u Hu. apply in_app_iff in Hu. destruct Hu as [Hu|[<-|[]]]; [auto|exact N]. }
      split; [rewrite W, <- app_assoc; reflexivity|exact P].
Qed.
(** alternatives are the only way to split *)
Lemma alternatives_with_plus gs : gs <> [] -> (forall g, In g gs -> ~ In plus g) -> forall cur, alternatives (with_plus gs) cur =
  match gs with [] => [] | g :: gs => (cur ++ g) :: gs end.
Proof.
  assert (forall g r cur, ~ In plus g -> alternatives (g ++ r) cur = alternatives r (cur ++ g)) as A.
  { induction g as [|t g IH]; intros r cur H; cbn [app alternatives]; [now rewrite app_nil_r|].
    destruct (eqb_spec t ["+"%char]) as [->|N]; [destruct H; now left|]. rewrite IH by (intros Q; apply H; now right). now rewrite <- app_assoc. }
  induction gs as [|g gs IH]; intros N H cur; [congruence|]. cbn [with_plus]. destruct gs as [|g' gs].
  - replace g with (g ++ []) at 1 by apply app_nil_r. rewrite A by (apply H; now left). reflexivity.
  - rewrite A by (apply H; now left). cbn [alternatives].
    replace (eqb plus ["+"%char]) with true by reflexivity. rewrite IH; [reflexivity|discriminate|]. intros h Hh. apply H. now right.
Qed.

Lemma meets_met g e : meets g e = true <-> met g e.
Proof.
  unfold meets, met. rewrite forallb_forall. split; intros H t Ht; specialize (H t Ht).
  - apply existsb_exists in H. destruct H as (u & Hu & E). apply andb_true_iff in E. destruct E as (E1 & E2).
    exists u. split; [exact Hu|]. split; [now apply eqb_eq|now apply inb_In].
  - apply existsb_exists. destruct H as (u & Hu & E1 & E2). exists u. split; [exact Hu|]. apply andb_true_iff. split; [now apply eqb_eq|now apply inb_In].
Qed.
Lemma filter_filled ms : filter filled (filter filled ms) = filter filled ms.
Proof.
  induction ms as [|h ms IH]; [reflexivity|]. cbn [filter]. destruct (filled h) eqn:F; [|exact IH]. cbn [filter]. rewrite F. now f_equal.
Qed.
Lemma good_selects ms r e : good ms r -> selects r e = true <-> chosen ms e.
Proof.
  intros (Gc & Gd). unfold selects, chosen. rewrite Gc, Gd.
  assert (filter (fun g : list text => match g with [] => false | _ => true end) (filter filled ms ++ [[]]) = filter filled ms) as ->.
  { rewrite filter_app. cbn [filter]. rewrite app_nil_r. change (fun g : list text => match g with [] => false | _ => true end) with filled.
    apply filter_filled. }
  destruct (filter filled ms) as [|g gs] eqn:F.
  - split; [|reflexivity]. intros _. left. intros g Hg. destruct g as [|t g]; [reflexivity|].
    assert (In (t :: g) (filter filled ms)) as Q by (apply filter_In; split; [exact Hg|reflexivity]). rewrite F in Q. destruct Q.
  - rewrite <- F. rewrite existsb_exists. split.
    + intros (h & Hh & M). right. apply filter_In in Hh. destruct Hh as (Hh & Hf). exists h. split; [exact Hh|]. split; [destruct h; discriminate|now apply meets_met].
    + intros [H|(h & Hh & Hn & M)].
      * assert (In g (filter filled ms)) as Q by (rewrite F; now left). apply filter_In in Q. destruct Q as (Q1 & Q2). rewrite (H g Q1) in Q2. discriminate Q2.
      * exists h. split; [apply filter_In; split; [exact Hh|destruct h; [congruence|reflexivity]]|now apply meets_met].
Qed.

Lemma remove_first_spec g ms : In g ms -> exists a c, ms = a ++ g :: c /\ ~ In g a /\ remove_first g ms = a ++ c.
Proof.
  induction ms as [|h ms IH]; intros H; [destruct H|]. cbn [remove_first]. destruct (eqb_spec h g) as [->|N].
  - exists [], ms. split; [reflexivity|]. split; [intros []|reflexivity].
  - destruct H as [H|H]; [congruence|]. destruct (IH H) as (a & c & -> & Na & ->). exists (h :: a), c. split; [reflexivity|].
    split; [intros [Q|Q]; [congruence|auto]|reflexivity].
Qed.

(** what adding and removing do, kept with the invariant *)
Definition Mok (valid : text -> bool) (ms : list (list text)) (r : matcher) : Prop := good ms r /\ all_valid valid ms.
Lemma add_match_spec valid m ms r : Mok valid ms r ->
  (all_valid valid (alternatives m []) /\ exists r', add_match valid m ms r = (true, (ms ++ alternatives m [], r')) /\ Mok valid (ms ++ alternatives m []) r') \/
  ((exists g t, In g (alternatives m []) /\ In t g /\ valid t = false) /\ exists r', add_match valid m ms r = (false, (ms, r')) /\ Mok valid ms r').
Proof.
  intros (G & V). destruct (valid_dec valid (alternatives m [])) as [A|A]; [left|right]; (split; [exact A|]); unfold add_match.
  - destruct (add_matches_ok valid _ ms r G A) as (r' & -> & G'). exists r'. split; [reflexivity|]. split; [exact G'|].
    intros g Hg. apply in_app_iff in Hg. destruct Hg as [Hg|Hg]; [exact (V g Hg)|exact (A g Hg)].
  - destruct (add_matches_bad valid _ ms r A) as (r' & ->). destruct (reset_ok valid ms V) as (r2 & -> & G2). exists r2. split; [reflexivity|]. split; assumption.
Qed.
Lemma del_match_spec valid o ms r : Mok valid ms r ->
  match o with
  | None => exists r', del_match valid o ms r = (true, ([], r')) /\ Mok valid [] r'
  | Some g => (In g ms /\ exists r', del_match valid o ms r = (true, (remove_first g ms, r')) /\ Mok valid (remove_first g ms) r') \/
              (~ In g ms /\ del_match valid o ms r = (false, (ms, r)))
  end.
Proof.
  intros (G & V). unfold del_match. destruct o as [g|].
  - destruct (inb g ms) eqn:I.
    + left. apply inb_In in I. split; [exact I|].
      assert (all_valid valid (remove_first g ms)) as V'.
      { destruct (remove_first_spec g ms I) as (a & c & -> & _ & ->). intros h Hh. apply V. apply in_app_iff in Hh. apply in_app_iff. destruct Hh; [now left|right; now right]. }
      destruct (reset_ok valid _ V') as (r' & -> & G'). exists r'. split; [reflexivity|]. split; assumption.
    + right. apply inb_false in I. split; [exact I|reflexivity].
  - destruct ms as [|g ms].
    + exists r. split; [reflexivity|]. split; assumption.
    + destruct (reset_ok valid []) as (r' & -> & G'); [intros h []|]. exists r'. split; [reflexivity|]. split; [exact G'|intros h []].
Qed.
