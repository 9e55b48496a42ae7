(** Lemmas about polling. *)
From Coq Require Import ZifyBool.
From Verif Require Import Base Poll_Model Poll_Spec.
Local Open Scope Z_scope.

Definition view (s : state) (p : string) : watch :=
  if inb p (logs s) then
    match dget p (prev s), dget p (cnt s) with Some l, Some m => Watched l m | _, _ => Absent end
  else Absent.

Record inv (s : state) : Prop := {
  i_nodup : NoDup (logs s);
  i_prev : dwf (prev s);
  i_cnt : dwf (cnt s);
  i_known : forall p, In p (logs s) -> exists l m, dget p (prev s) = Some l /\ dget p (cnt s) = Some m /\ 0 <= m <= 50 }.

Lemma inb_remove p q l : inb p (remove q l) = negb (eqb p q) && inb p l.
Proof.
  apply Bool.eq_iff_eq_true. rewrite inb_In. unfold remove. rewrite filter_In, andb_true_iff, inb_In. tauto.
Qed.
Lemma remove_nodup q l : NoDup l -> NoDup (remove q l).
Proof. apply NoDup_filter. Qed.

Lemma dset_dset {V} (p : string) (a b : V) d : dset p a (dset p b d) = dset p a d.
Proof.
  induction d as [|[k v] d IH]; cbn [dset].
  - now rewrite eqb_refl.
  - destruct (eqb p k) eqn:Q; cbn [dset]; rewrite Q; [reflexivity|]. now rewrite IH.
Qed.
(** States that differ in errors and idleness only *)
Definition same (s s' : state) : Prop := logs s' = logs s /\ prev s' = prev s /\ cnt s' = cnt s.
Lemma same_refl s : same s s.
Proof. repeat split. Qed.
Lemma same_trans a b c : same a b -> same b c -> same a c.
Proof. unfold same. intuition congruence. Qed.
Lemma common_error_same s : same s (common_error s).
Proof. unfold common_error. destruct (100 <=? errors s + 1); repeat split. Qed.
Lemma view_same s s' p : same s s' -> view s' p = view s p.
Proof. intros (E1 & E2 & E3). unfold view. now rewrite E1, E2, E3. Qed.
Lemma inv_same s s' : same s s' -> inv s -> inv s'.
Proof. intros (E1 & E2 & E3) [I1 I2 I3 I4]. split; rewrite ?E1, ?E2, ?E3; auto. Qed.

Lemma add_log_spec s p : inv s -> inv (add_log s p) /\
  (forall q, view (add_log s p) q = if eqb p q then match view s q with Absent => Watched None 0 | w => w end else view s q) /\
  logs (add_log s p) = (if inb p (logs s) then logs s else logs s ++ [p]) /\
  errors (add_log s p) = errors s /\ idle (add_log s p) = idle s.
Proof.
  intros I. unfold add_log. destruct (inb p (logs s)) eqn:E.
  - split; auto. split; [|auto]. intros q. destruct (eqb p q) eqn:Q; auto. apply eqb_true in Q as <-.
    unfold view. rewrite E. apply inb_In in E. destruct (i_known _ I _ E) as (l & m & -> & -> & _). reflexivity.
  - destruct I as [I1 I2 I3 I4]. assert (N : ~ In p (logs s)) by now apply inb_false. split; [|split; [|auto]].
    + split; cbn [logs prev cnt]; [now apply NoDup_snoc|now apply dwf_dset|now apply dwf_dset|].
      intros q Hq. apply in_app_iff in Hq. destruct (eqb q p) eqn:Q.
      * apply eqb_true in Q as ->. exists None, 0. rewrite !dget_dset_same. repeat split; lia.
      * assert (q <> p) by (intros ->; rewrite eqb_refl in Q; discriminate).
        destruct Hq as [Hq|[Hq|[]]]; [|congruence]. rewrite !dget_dset_other by auto. auto.
    + intros q. unfold view. cbn [logs prev cnt].
      assert (Hi : inb q (logs s ++ [p]) = inb q (logs s) || eqb q p).
      { apply Bool.eq_iff_eq_true. rewrite orb_true_iff, !inb_In, in_app_iff. cbn. rewrite eqb_eq. intuition congruence. }
      rewrite Hi. destruct (eqb p q) eqn:Q.
      * apply eqb_true in Q as <-. rewrite E, eqb_refl, !dget_dset_same. reflexivity.
      * assert (q <> p) by (intros ->; rewrite eqb_refl in Q; discriminate).
        rewrite !dget_dset_other by auto. replace (eqb q p) with false; [now rewrite orb_false_r|].
        symmetry. destruct (eqb q p) eqn:Q2; auto. now apply eqb_true in Q2.
Qed.
Lemma del_log_spec s p : inv s -> inv (del_log s p) /\
  (forall q, view (del_log s p) q = if eqb p q then Absent else view s q) /\
  logs (del_log s p) = remove p (logs s) /\ errors (del_log s p) = errors s /\ idle (del_log s p) = idle s.
Proof.
  intros I. unfold del_log. destruct (inb p (logs s)) eqn:E.
  - destruct I as [I1 I2 I3 I4]. split; [|split; [|auto]].
    + split; cbn [logs prev cnt]; [now apply remove_nodup|now apply dwf_ddel|now apply dwf_ddel|].
      intros q Hq. apply filter_In in Hq as [Hq Q]. assert (q <> p) by (intros ->; rewrite eqb_refl in Q; discriminate).
      rewrite !dget_ddel by auto. replace (eqb q p) with false; auto. symmetry. now apply negb_true_iff in Q.
    + intros q. unfold view. cbn [logs prev cnt]. rewrite inb_remove, !dget_ddel by auto.
      destruct (eqb p q) eqn:Q.
      * apply eqb_true in Q as <-. now rewrite eqb_refl.
      * replace (eqb q p) with false; [reflexivity|].
        symmetry. destruct (eqb q p) eqn:Q2; auto. apply eqb_true in Q2 as ->. now rewrite eqb_refl in Q.
  - split; auto. split; [|split; [|auto]].
    + intros q. destruct (eqb p q) eqn:Q; auto. apply eqb_true in Q as <-. unfold view. now rewrite E.
    + unfold remove. apply inb_false in E. symmetry. clear I. induction (logs s) as [|x l IH]; cbn; auto.
      destruct (eqb x p) eqn:Q.
      * apply eqb_true in Q as ->. exfalso. apply E. now left.
      * cbn. f_equal. apply IH. intros H. apply E. now right.
Qed.

Lemma is_modified_spec s p o : inv s -> In p (logs s) -> o <> OtherErr ->
  exists s' b, is_modified s p o = (s', Some b) /\ inv s' /\
  (forall q, view s' q = if eqb p q then looked (view s q) o else view s q) /\
  (b = true <-> changed (view s p) o) /\
  logs s' = (match looked (view s p) o with Absent => remove p (logs s) | _ => logs s end).
Proof.
  intros I Hp Ho. destruct (i_known _ I _ Hp) as (l & m & Hl & Hm & Rm). assert (Hi : inb p (logs s) = true) by now apply inb_In.
  assert (Hv : view s p = Watched l m) by (unfold view; rewrite Hi, Hl, Hm; reflexivity).
  unfold is_modified. destruct o as [st| |]; [| |contradiction].
  - cbv zeta. rewrite Hl.
    assert (Set_ : forall l', inv (mkP (logs s) (dset p l' (prev s)) (dset p 0 (cnt s)) (errors s) (idle s)) /\
      forall q, view (mkP (logs s) (dset p l' (prev s)) (dset p 0 (cnt s)) (errors s) (idle s)) q = if eqb p q then Watched l' 0 else view s q).
    { intros l'. destruct I as [I1 I2 I3 I4]. split.
      - split; cbn [logs prev cnt]; [auto|now apply dwf_dset|now apply dwf_dset|]. intros q Hq. destruct (eqb q p) eqn:Q.
        + apply eqb_true in Q as ->. rewrite !dget_dset_same. exists l', 0. repeat split; lia.
        + assert (q <> p) by (intros ->; rewrite eqb_refl in Q; discriminate). rewrite !dget_dset_other by auto. auto.
      - intros q. unfold view. cbn [logs prev cnt]. destruct (eqb p q) eqn:Q.
        + apply eqb_true in Q as <-. now rewrite Hi, !dget_dset_same.
        + assert (q <> p) by (intros ->; rewrite eqb_refl in Q; discriminate). now rewrite !dget_dset_other by auto. }
    destruct (eqb (Some l) (Some (Some st))) eqn:E.
    + apply eqb_true in E. injection E as ->.
      assert (Keep : inv (mkP (logs s) (prev s) (dset p 0 (cnt s)) (errors s) (idle s)) /\
        forall q, view (mkP (logs s) (prev s) (dset p 0 (cnt s)) (errors s) (idle s)) q = if eqb p q then Watched (Some st) 0 else view s q).
      { destruct I as [I1 I2 I3 I4]. split.
        - split; cbn [logs prev cnt]; [auto|auto|now apply dwf_dset|]. intros q Hq. destruct (eqb q p) eqn:Q.
          + apply eqb_true in Q as ->. rewrite !dget_dset_same. exists (Some st), 0. repeat split; auto; lia.
          + assert (q <> p) by (intros ->; rewrite eqb_refl in Q; discriminate). rewrite !dget_dset_other by auto. auto.
        - intros q. unfold view. cbn [logs prev cnt]. destruct (eqb p q) eqn:Q.
          + apply eqb_true in Q as <-. now rewrite Hi, Hl, !dget_dset_same.
          + assert (q <> p) by (intros ->; rewrite eqb_refl in Q; discriminate). now rewrite !dget_dset_other by auto. }
      destruct Keep as [K1 K2]. do 2 eexists. split; [reflexivity|]. split; [exact K1|]. split; [|split].
      * intros q. rewrite K2. destruct (eqb p q) eqn:Q; auto. apply eqb_true in Q as <-. now rewrite Hv.
      * split; [discriminate|]. rewrite Hv. intros (l0 & m0 & st0 & H1 & H2 & H3). congruence.
      * rewrite Hv. reflexivity.
    + destruct (Set_ (Some st)) as [K1 K2]. do 2 eexists. split; [reflexivity|]. cbn [logs prev cnt errors idle]. split; [exact K1|]. split; [|split].
      * intros q. rewrite K2. destruct (eqb p q) eqn:Q; auto. apply eqb_true in Q as <-. now rewrite Hv.
      * split; [|reflexivity]. intros _. rewrite Hv. exists l, m, st. split; auto. split; auto. intros ->. now rewrite eqb_refl in E.
      * rewrite Hv. reflexivity.
  - rewrite Hi. unfold dmem. rewrite Hl, Hm. cbn [negb orb]. rewrite andb_false_r. cbv zeta.
    set (s0 := mkP (logs s) (prev s) (dset p (m + 1) (cnt s)) (errors s) (idle s)).
    pose proof (common_error_same s0) as Sm. set (s1 := common_error s0) in *.
    assert (V0 : forall q c, view (mkP (logs s) (prev s) (dset p c (cnt s)) (errors s) (idle s)) q = if eqb p q then Watched l c else view s q).
    { intros q c. unfold view. cbn [logs prev cnt]. destruct (eqb p q) eqn:Q.
      - apply eqb_true in Q as <-. now rewrite Hi, Hl, !dget_dset_same.
      - assert (q <> p) by (intros ->; rewrite eqb_refl in Q; discriminate). now rewrite !dget_dset_other by auto. }
    assert (I0 : forall c, 0 <= c <= 50 -> inv (mkP (logs s) (prev s) (dset p c (cnt s)) (errors s) (idle s))).
    { intros c Hc. destruct I as [I1 I2 I3 I4]. split; cbn [logs prev cnt]; [auto|auto|now apply dwf_dset|]. intros q Hq. destruct (eqb q p) eqn:Q.
      - apply eqb_true in Q as ->. rewrite Hl, !dget_dset_same. exists l, c. repeat split; auto; lia.
      - assert (q <> p) by (intros ->; rewrite eqb_refl in Q; discriminate). rewrite !dget_dset_other by auto. auto. }
    destruct (50 <? m + 1) eqn:E.
    + assert (m = 50) by lia. subst m.
      assert (S2 : same (mkP (logs s) (prev s) (dset p 0 (cnt s)) (errors s) (idle s)) (mkP (logs s1) (prev s1) (dset p 0 (cnt s1)) (errors s1) (idle s1))).
      { destruct Sm as (E1 & E2 & E3). unfold same. cbn [logs prev cnt]. rewrite E1, E2, E3. unfold s0. cbn [logs prev cnt].
        split; auto. split; auto. apply dset_dset. }
      assert (I2 : inv (mkP (logs s1) (prev s1) (dset p 0 (cnt s1)) (errors s1) (idle s1))) by (apply (inv_same _ _ S2), I0; lia).
      destruct (del_log_spec _ p I2) as (K1 & K2 & K3 & _ & _). do 2 eexists. split; [reflexivity|]. split; [exact K1|]. split; [|split].
      * intros q. rewrite K2. destruct (eqb p q) eqn:Q.
        -- apply eqb_true in Q as <-. rewrite Hv. reflexivity.
        -- rewrite (view_same _ _ q S2), V0, Q. reflexivity.
      * split; [discriminate|]. intros (l0 & m0 & st0 & _ & H & _). discriminate.
      * rewrite K3, Hv. cbn [looked logs]. destruct Sm as (-> & _). reflexivity.
    + do 2 eexists. split; [reflexivity|]. split; [apply (inv_same s0); auto; apply I0; lia|]. split; [|split].
      * intros q. rewrite (view_same s0) by auto. unfold s0. rewrite V0. destruct (eqb p q) eqn:Q; auto.
        apply eqb_true in Q as <-. rewrite Hv. cbn [looked]. replace (m =? 50) with false by lia. reflexivity.
      * split; [discriminate|]. intros (l0 & m0 & st0 & _ & H & _). discriminate.
      * rewrite Hv. cbn [looked]. replace (m =? 50) with false by lia. destruct Sm as (-> & _). reflexivity.
Qed.

Lemma get_modified_spec w : (forall p, w p <> OtherErr) -> forall l s, inv s -> NoDup l -> incl l (logs s) ->
  exists s' q, get_modified s w l = (s', Some q) /\ inv s' /\
  (forall p, view s' p = if inb p l then looked (view s p) (w p) else view s p) /\
  (forall p, In p q <-> In p l /\ changed (view s p) (w p)) /\
  (exists keep, q = filter keep l) /\
  (forall p, In p (logs s') <-> In p (logs s) /\ view s' p <> Absent).
Proof.
  intros Hw. induction l as [|p l IH]; intros s I ND Inc; cbn [get_modified].
  - do 2 eexists. split; [reflexivity|]. split; auto. split; [reflexivity|]. split; [cbn; tauto|]. split; [exists (fun _ => true); reflexivity|].
    intros p. split; [|tauto]. intros Hp. split; auto. unfold view. rewrite (proj2 (inb_In _ _) Hp).
    destruct (i_known _ I _ Hp) as (a & b & -> & -> & _). discriminate.
  - inversion ND as [|x y Np ND']; subst x y. destruct (is_modified_spec s p (w p) I) as (s1 & b & E & I1 & V1 & B1 & L1); auto. { apply Inc; now left. }
    rewrite E.
    assert (Hne : forall q, In q l -> eqb p q = false).
    { intros q Hq. destruct (eqb p q) eqn:Q; auto. apply eqb_true in Q as ->. contradiction. }
    destruct (IH s1 I1 ND') as (s2 & q & E2 & I2 & V2 & B2 & (keep & K) & L2).
    { intros q Hq. rewrite L1. destruct (looked (view s p) (w p)).
      - apply filter_In. split; [apply Inc; now right|]. rewrite Bool.negb_true_iff. destruct (eqb q p) eqn:Q; auto. apply eqb_true in Q as ->. contradiction.
      - apply Inc; now right. }
    rewrite E2. do 2 eexists. split; [reflexivity|]. split; [exact I2|]. split; [|split; [|split]].
    + intros k. rewrite V2, V1. cbn [inb existsb]. fold (inb k l). destruct (eqb k p) eqn:Q.
      * apply eqb_true in Q as ->. cbn [orb]. rewrite eqb_refl. destruct (inb p l) eqn:Q2; auto. apply inb_In in Q2. contradiction.
      * cbn [orb]. replace (eqb p k) with false; [reflexivity|]. symmetry. destruct (eqb p k) eqn:Q2; auto. apply eqb_true in Q2 as ->. now rewrite eqb_refl in Q.
    + intros k.
      assert (Vk : In k l -> view s1 k = view s k) by (intros Hk; rewrite V1, (Hne _ Hk); reflexivity).
      destruct b; cbn [In]; rewrite B2; split.
      * intros [<-|[Hk C]]; [split; auto; now apply B1|]. rewrite Vk in C by auto. auto.
      * intros [[<-|Hk] C]; auto. right. rewrite Vk by auto. auto.
      * intros [Hk C]. rewrite Vk in C by auto. auto.
      * intros [[<-|Hk] C]; [apply B1 in C; discriminate|]. rewrite Vk by auto. auto.
    + exists (fun k => if eqb k p then b else keep k). cbn [filter]. rewrite eqb_refl.
      assert (F : filter (fun k => if eqb k p then b else keep k) l = filter keep l).
      { apply filter_ext_in. intros k Hk. replace (eqb k p) with false; auto. symmetry. destruct (eqb k p) eqn:Q; auto. apply eqb_true in Q as ->. contradiction. }
      rewrite F, <- K. destruct b; reflexivity.
    + intros k. rewrite L2, L1. split; intros [H1 H2]; (split; [|exact H2]).
      * destruct (looked (view s p) (w p)); [now apply filter_In in H1|exact H1].
      * destruct (looked (view s p) (w p)) eqn:Q; [|exact H1]. apply filter_In. split; auto. rewrite Bool.negb_true_iff.
        destruct (eqb k p) eqn:Q2; auto. apply eqb_true in Q2 as ->. exfalso. apply H2. rewrite V2, V1, eqb_refl.
        destruct (inb p l) eqn:Q3; [apply inb_In in Q3; contradiction|exact Q].
Qed.

Lemma read_lines_same s l : same s (read_lines s l).
Proof.
  revert s; induction l as [|ok l IH]; intros s; cbn; [apply same_refl|]. destruct (idle s) eqn:E; [apply same_refl|].
  eapply same_trans; [|apply IH]. destruct ok; [repeat split|apply common_error_same].
Qed.
Lemma read_lines_idle s l : idle s = true -> read_lines s l = s.
Proof. intros H. destruct l; cbn; auto. now rewrite H. Qed.
Lemma read_all_idle w l s : idle s = true -> read_all s w l = (s, [], true).
Proof. intros H. induction l as [|p l IH]; cbn; auto. now rewrite H. Qed.
Lemma read_all_spec w : forall l s, exists s' q ok, read_all s w l = (s', q, ok) /\ same s s' /\
  (exists r, l = q ++ r /\ (ok = true -> idle s' = false -> r = [])) /\
  (ok = false -> exists k p, q = k ++ [p] /\ w p = Raise) /\ (ok = true -> forall p, In p q -> w p <> Raise).
Proof.
  induction l as [|p l IH]; intros s; cbn [read_all].
  - exists s, [], true. split; auto. split; [apply same_refl|]. split; [exists []; auto|]. split; [discriminate|]. intros _ p [].
  - destruct (idle s) eqn:E.
    + rewrite read_all_idle by auto. exists s, [], true. split; auto. split; [apply same_refl|]. split; [exists (p :: l); split; auto; congruence|].
      split; [discriminate|]. intros _ q [].
    + destruct (w p) as [k|] eqn:W.
      * destruct (IH (read_lines s k)) as (s' & q & ok & E1 & Sm & (r & E2 & E3) & F1 & F2). rewrite E1. exists s', (p :: q), ok. split; auto.
        split; [eapply same_trans; [apply read_lines_same|exact Sm]|]. split; [exists r; rewrite E2; auto|]. split.
        -- intros Hok. destruct (F1 Hok) as (k0 & p0 & -> & Hp). exists (p :: k0), p0. auto.
        -- intros Hok x [<-|Hx]; [congruence|auto].
      * exists s, [p], false. split; auto. split; [apply same_refl|]. split; [exists l; split; auto; discriminate|]. split; [|discriminate].
        intros _. exists [], p. auto.
Qed.
