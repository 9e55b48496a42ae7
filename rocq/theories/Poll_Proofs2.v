(** Lemmas about polling: runs. *)
From Coq Require Import ZifyBool.
From Verif Require Import Base Poll_Model Poll_Spec Poll_Proofs.
Local Open Scope Z_scope.

Lemma inv_init : inv init.
Proof. split; try constructor. intros p []. Qed.
Lemma view_logs s p : inv s -> In p (logs s) <-> view s p <> Absent.
Proof.
  intros I. unfold view. destruct (inb p (logs s)) eqn:E.
  - apply inb_In in E. destruct (i_known _ I _ E) as (l & m & -> & -> & _). split; [discriminate|auto].
  - apply inb_false in E. tauto.
Qed.

(** What a pass does *)
Definition passed (s : state) (stats : string -> outcome) (reads : string -> reading) (s' : state) (a : answer) : Prop :=
  exists keep q r, filter keep (logs s) = q ++ r /\
    (forall p, In p (q ++ r) <-> In p (logs s) /\ changed (view s p) (stats p)) /\
    ((a = Polled q /\ (idle s' = false -> r = []) /\ forall p, In p q -> reads p <> Raise) \/
     (a = Failed q /\ exists k p, q = k ++ [p] /\ reads p = Raise)).
Lemma step_spec s o s' a : inv s -> system_errors o -> step s o = (s', a) ->
  inv s' /\ (forall p, view s' p = watch_step p (view s p) o a) /\
  match o with
  | Pass stats reads => if idle s then s' = s /\ a = Asleep else passed s stats reads s' a
  | SetIdle b => idle s' = b
  | _ => idle s' = idle s
  end.
Proof.
  intros I Ho. destruct o as [q|q|b|stats reads]; cbn [step].
  - intros [= <- <-]. destruct (add_log_spec s q I) as (I1 & V & _ & _ & E). split; [auto|]. split; [|exact E]. intros p. rewrite V. cbn. destruct (eqb q p), (view s p); reflexivity.
  - intros [= <- <-]. destruct (del_log_spec s q I) as (I1 & V & _ & _ & E). split; [auto|]. split; [|exact E]. intros p. rewrite V. reflexivity.
  - intros [= <- <-]. split; [|split; reflexivity]. apply (inv_same s); auto. repeat split.
  - destruct (idle s) eqn:Ei.
    { intros [= <- <-]. split; auto. }
    cbn in Ho. destruct (get_modified_spec stats Ho (logs s) s I (i_nodup _ I) (incl_refl _)) as (s1 & l & E & I1 & V1 & B1 & (keep & K) & _).
    rewrite E. destruct (read_all_spec reads l s1) as (s2 & q & ok & E2 & Sm & (r & Hl & Hr) & F1 & F2). rewrite E2.
    assert (V : forall p, view s1 p = looked (view s p) (stats p)).
    { intros p. rewrite V1. destruct (inb p (logs s)) eqn:Q; auto. replace (view s p) with Absent; [reflexivity|].
      unfold view. now rewrite Q. }
    destruct ok; intros [= <- <-].
    + split; [now apply (inv_same s1)|]. split; [intros p; rewrite (view_same s1) by auto; apply V|].
      exists keep, q, r. rewrite <- Hl, <- K. split; [exact eq_refl|]. split; [exact B1|]. left. split; [reflexivity|]. split; [intros; now apply Hr|now apply F2].
    + pose proof (same_trans _ _ _ Sm (common_error_same s2)) as Sm2.
      split; [now apply (inv_same s1)|]. split; [intros p; rewrite (view_same s1) by auto; apply V|].
      exists keep, q, r. rewrite <- Hl, <- K. split; [exact eq_refl|]. split; [exact B1|]. right. split; [reflexivity|]. now apply F1.
Qed.

Lemma run_cons s o ops : run s (o :: ops) = let (s1, a) := step s o in let (s2, l) := run s1 ops in (s2, a :: l).
Proof. reflexivity. Qed.
Lemma run_spec : forall ops s s' ans, inv s -> Forall system_errors ops -> run s ops = (s', ans) ->
  inv s' /\ length ans = length ops /\ forall p, view s' p = history p (view s p) ops ans.
Proof.
  induction ops as [|o ops IH]; intros s s' ans I F; cbn [run].
  - intros [= <- <-]. repeat split; auto; apply I.
  - destruct (step s o) as [s1 a] eqn:E. destruct (run s1 ops) as [s2 l] eqn:E2. intros [= <- <-]. inversion F; subst.
    destruct (step_spec _ _ _ _ I H1 E) as (I1 & V & _). destruct (IH _ _ _ I1 H2 E2) as (I2 & L & V2).
    split; auto. split; [cbn; now rewrite L|]. intros p. rewrite V2, V. reflexivity.
Qed.
Lemma run_app : forall a s b, run s (a ++ b) = let (s1, x) := run s a in let (s2, y) := run s1 b in (s2, x ++ y).
Proof.
  induction a as [|o a IH]; intros s b; cbn [app run].
  - now destruct (run s b).
  - destruct (step s o) as [s1 x]. rewrite IH. destruct (run s1 a) as [s2 y]. destruct (run s2 b) as [s3 z]. reflexivity.
Qed.

(** Failing looks in a row *)
Lemma history_misses p : forall ops ans, length ans = length ops -> ~ In Asleep ans ->
  Forall (fun o => pass o /\ match o with Pass stats _ => no_answer (stats p) | _ => True end) ops ->
  forall l m, 0 <= m <= 50 ->
  history p (Watched l m) ops ans = if m + Z.of_nat (length ops) <=? 50 then Watched l (m + Z.of_nat (length ops)) else Absent.
Proof.
  assert (Ab : forall ops ans, length ans = length ops -> Forall pass ops -> history p Absent ops ans = Absent).
  { induction ops as [|o ops IH]; intros [|a ans] L F; cbn; auto; try discriminate. inversion F; subst. destruct o; try contradiction.
    replace (watch_step p Absent (Pass stats reads) a) with Absent by (cbn; now destruct a). apply IH; auto. }
  induction ops as [|o ops IH]; intros ans L NA F l m Hm.
  - destruct ans; [|discriminate]. cbn. replace (m + 0) with m by lia. now replace (m <=? 50) with true by lia.
  - destruct ans as [|a ans]; [discriminate|]. inversion F as [|x y [P Q] F']; subst x y. destruct o as [| | |stats reads]; try contradiction.
    cbn [history]. assert (W : watch_step p (Watched l m) (Pass stats reads) a = if m =? 50 then Absent else Watched l (m + 1)).
    { cbn. assert (a <> Asleep) by (intros ->; apply NA; now left). destruct a; try congruence; destruct (stats p); try contradiction; reflexivity. }
    rewrite W. cbn [length]. injection L as L. destruct (m =? 50) eqn:E.
    + replace (m + Z.of_nat (S (length ops)) <=? 50) with false by lia. apply Ab; auto. eapply Forall_impl; [|exact F']. cbn. tauto.
    + rewrite IH; auto; [|intros H; apply NA; now right|lia].
      replace (m + 1 + Z.of_nat (length ops)) with (m + Z.of_nat (S (length ops))) by lia. reflexivity.
Qed.

(** While a log stays as it was last seen, it is not read *)
Lemma unread p st : forall ops s s' ans, inv s -> Forall system_errors ops -> run s ops = (s', ans) ->
  Forall (fun o => pass o /\ match o with Pass stats _ => stats p = St st | _ => True end) ops ->
  (exists m, view s p = Watched (Some st) m) -> forall a, In a ans -> ~ read_in a p.
Proof.
  induction ops as [|o ops IH]; intros s s' ans I F; cbn [run].
  - intros [= <- <-] _ _ a [].
  - destruct (step s o) as [s1 a] eqn:E. destruct (run s1 ops) as [s2 l] eqn:E2. intros [= <- <-] G (m & V) b.
    inversion F as [|x y F1 F']; inversion G as [|x' y' [P Q] G']; subst. destruct o as [| | |stats reads]; try contradiction.
    destruct (step_spec _ _ _ _ I F1 E) as (I1 & V1 & R). intros [<-|Hb].
    + destruct (idle s); [destruct R as [-> ->]; auto|]. destruct R as (keep & q & r & _ & B & C).
      assert (N : ~ In p (q ++ r)).
      { intros H. apply B in H as [_ (l0 & m0 & st0 & H1 & H2 & H3)]. congruence. }
      rewrite in_app_iff in N. destruct C as [(-> & _)|(-> & _)]; cbn; tauto.
    + eapply IH; eauto. exists (match a with Asleep => m | _ => 0 end). rewrite V1, V. cbn. rewrite Q. now destruct a.
Qed.

(** Errors *)
Lemma failing_lines_nonneg l : 0 <= failing_lines l.
Proof. induction l as [|[] l IH]; cbn [failing_lines]; lia. Qed.
Lemma failing_nonneg o r : 0 <= failing o r.
Proof. unfold failing. destruct o, r; try lia; pose proof (failing_lines_nonneg l); lia. Qed.

Definition few (s : state) (n : Z) : Prop := idle s = false /\ 0 <= errors s <= n.
Lemma common_error_few s n : few s n -> n + 1 < 100 -> few (common_error s) (n + 1).
Proof. intros [E R] H. unfold common_error. replace (100 <=? errors s + 1) with false by lia. split; cbn; auto. lia. Qed.
Lemma few_le s n n' : few s n -> n <= n' -> few s n'.
Proof. intros [E R] H. split; auto. lia. Qed.
Definition look_fails (o : outcome) : Z := match o with St _ => 0 | _ => 1 end.
Fixpoint looks_fail (l : list string) (w : string -> outcome) : Z := match l with [] => 0 | p :: r => look_fails (w p) + looks_fail r w end.
Lemma looks_fail_nonneg w l : 0 <= looks_fail l w.
Proof. induction l as [|p l IH]; cbn [looks_fail]; [lia|]. unfold look_fails. destruct (w p); lia. Qed.
Lemma is_modified_few s p o n : few s n -> n + look_fails o < 100 -> few (fst (is_modified s p o)) (n + look_fails o).
Proof.
  intros Fw H. unfold is_modified. destruct o; cbn [look_fails] in *.
  - cbv zeta. destruct (eqb _ _); (apply (few_le _ n); [destruct Fw; split; auto|lia]).
  - destruct (negb (inb p (logs s)) || negb (dmem p (prev s))); [apply (few_le _ n); auto; lia|]. cbv zeta. rewrite andb_false_r.
    set (c := match dget p (cnt s) with Some c => c | None => 0 end).
    assert (C : few (common_error (mkP (logs s) (prev s) (dset p (c + 1) (cnt s)) (errors s) (idle s))) (n + 1))
      by (apply common_error_few; [destruct Fw; split; auto|lia]).
    destruct (50 <? c + 1); auto. unfold del_log. cbn [fst logs]. destruct (inb _ _); destruct C; split; auto.
  - destruct (negb (inb p (logs s)) || negb (dmem p (prev s))); [apply (few_le _ n); auto; lia|]. cbv zeta. rewrite andb_true_r.
    set (c := match dget p (cnt s) with Some c => c | None => 0 end).
    destruct (c <? 2); [apply (few_le _ n); auto; lia|].
    assert (C : few (common_error (mkP (logs s) (prev s) (dset p (c + 1) (cnt s)) (errors s) (idle s))) (n + 1))
      by (apply common_error_few; [destruct Fw; split; auto|lia]).
    destruct (50 <? c + 1); auto. unfold del_log. cbn [fst logs]. destruct (inb _ _); destruct C; split; auto.
Qed.
Lemma get_modified_few w : forall l s n, few s n -> n + looks_fail l w < 100 -> few (fst (get_modified s w l)) (n + looks_fail l w).
Proof.
  induction l as [|p l IH]; intros s n Fw H; cbn [get_modified looks_fail fst] in *.
  - apply (few_le _ n); auto; lia.
  - pose proof (looks_fail_nonneg w l). pose proof (is_modified_few s p (w p) n Fw ltac:(lia)) as M.
    destruct (is_modified s p (w p)) as [s1 [m|]]; cbn [fst] in *.
    + specialize (IH s1 _ M ltac:(lia)). destruct (get_modified s1 w l) as [s2 [q|]]; cbn [fst] in *; (eapply few_le; [exact IH|lia]).
    + eapply few_le; [exact M|lia].
Qed.
Lemma read_lines_few : forall l s n, few s n -> n + failing_lines l < 100 -> few (read_lines s l) (n + failing_lines l).
Proof.
  induction l as [|ok l IH]; intros s n Fw H; cbn [read_lines failing_lines] in *.
  - apply (few_le _ n); auto; lia.
  - pose proof (failing_lines_nonneg l). destruct Fw as [E R]. rewrite E. destruct ok.
    + apply IH; auto. split; auto. cbn [errors]. split; [apply Z.div_pos; lia|]. apply Z.div_le_upper_bound; lia.
    + replace (n + (1 + failing_lines l)) with (n + 1 + failing_lines l) by lia. apply IH; [|lia]. apply common_error_few; [split; auto|lia].
Qed.
Definition read_fails (r : reading) : Z := match r with Lines l => failing_lines l | Raise => 1 end.
Fixpoint reads_fail (l : list string) (w : string -> reading) : Z := match l with [] => 0 | p :: r => read_fails (w p) + reads_fail r w end.
Lemma read_fails_nonneg r : 0 <= read_fails r.
Proof. destruct r; cbn; [apply failing_lines_nonneg|lia]. Qed.
Lemma reads_fail_nonneg w l : 0 <= reads_fail l w.
Proof. induction l as [|p l IH]; cbn [reads_fail]; [lia|]. pose proof (read_fails_nonneg (w p)). lia. Qed.
Lemma read_all_few w : forall l s n, few s n -> n + reads_fail l w < 100 ->
  forall s' q ok, read_all s w l = (s', q, ok) -> few (if ok then s' else common_error s') (n + reads_fail l w).
Proof.
  induction l as [|p l IH]; intros s n Fw H s' q ok; cbn [read_all reads_fail] in *.
  - intros [= <- <- <-]. apply (few_le _ n); auto; lia.
  - pose proof (reads_fail_nonneg w l). destruct Fw as [E R]. rewrite E. destruct (w p) as [k|] eqn:W; cbn [read_fails] in *.
    + pose proof (failing_lines_nonneg k).
      pose proof (read_lines_few k s n (conj E R) ltac:(lia)) as M. destruct (read_all (read_lines s k) w l) as [[s1 q1] ok1] eqn:E1.
      specialize (IH _ _ M ltac:(lia) _ _ _ E1). intros [= <- <- <-]. eapply few_le; [exact IH|lia].
    + intros [= <- <- <-]. eapply few_le; [apply common_error_few; [split; eauto|lia]|lia].
Qed.
Lemma failing_in_split stats reads l : failing_in l stats reads = looks_fail l stats + reads_fail l reads.
Proof.
  induction l as [|p l IH]; cbn [failing_in looks_fail reads_fail]; [reflexivity|]. rewrite IH. unfold failing, look_fails, read_fails. lia.
Qed.
Lemma failing_in_incl stats reads : forall l l', NoDup l -> incl l l' -> failing_in l stats reads <= failing_in l' stats reads.
Proof.
  assert (Nn : forall l, 0 <= failing_in l stats reads).
  { induction l as [|p l IH]; cbn [failing_in]; [lia|]. pose proof (failing_nonneg (stats p) (reads p)). lia. }
  induction l as [|p l IH]; intros l' ND Inc; [apply Nn|]. inversion ND; subst.
  destruct (in_split p l') as (a & b & ->); [apply Inc; now left|].
  assert (A : forall a b, failing_in (a ++ b) stats reads = failing_in a stats reads + failing_in b stats reads).
  { clear. induction a as [|x a IH]; intros b; cbn [app failing_in]; [lia|]. rewrite IH. lia. }
  specialize (IH (a ++ b) H2). rewrite A in *. cbn [failing_in]. assert (incl l (a ++ b)).
  { intros x Hx. specialize (Inc x (or_intror Hx)). rewrite in_app_iff in *. cbn in Inc. destruct Inc as [?|[<-|?]]; auto. contradiction. }
  specialize (IH H). lia.
Qed.
Lemma reads_fail_filter w keep l : reads_fail (filter keep l) w <= reads_fail l w.
Proof. induction l as [|p l IH]; cbn [filter reads_fail]; [lia|]. pose proof (read_fails_nonneg (w p)). destruct (keep p); cbn [reads_fail]; lia. Qed.

Lemma run_few paths : forall ops s n, inv s -> Forall system_errors ops -> incl (logs s) paths ->
  Forall (fun o => match o with Add p => In p paths | SetIdle b => b = false | _ => True end) ops ->
  few s n -> n + total_failing paths ops < 100 -> forall s' ans, run s ops = (s', ans) -> few s' (n + total_failing paths ops).
Proof.
  assert (Tn : forall ops, 0 <= total_failing paths ops).
  { assert (Nn : forall l st rd, 0 <= failing_in l st rd).
    { induction l as [|p l IH]; intros; cbn [failing_in]; [lia|]. pose proof (failing_nonneg (st p) (rd p)). specialize (IH st rd). lia. }
    induction ops as [|[]  ops IH]; cbn [total_failing]; try lia. pose proof (Nn paths stats reads). lia. }
  induction ops as [|o ops IH]; intros s n I F Inc G Fw H s' ans; cbn [run].
  - intros [= <- <-]. cbn. eapply few_le; eauto; lia.
  - destruct (step s o) as [s1 a] eqn:E. destruct (run s1 ops) as [s2 l] eqn:E2. intros [= <- <-].
    inversion F as [|x y F1 F']; inversion G as [|x' y' G1 G']; subst. destruct (step_spec _ _ _ _ I F1 E) as (I1 & V & R).
    assert (Inc1 : incl (logs s1) paths).
    { intros p Hp. apply (view_logs _ _ I1) in Hp. rewrite V in Hp.
      assert (W : view s p <> Absent \/ In p paths).
      { destruct o; cbn in *; auto.
        - destruct (eqb p0 p) eqn:Q; [apply eqb_true in Q as <-; auto|auto].
        - left. destruct (eqb p0 p); congruence.
        - left. intros K. rewrite K in Hp. destruct a; cbn in Hp; congruence. }
      destruct W as [W|W]; auto. apply Inc. now apply (view_logs _ _ I). }
    specialize (Tn ops).
    assert (Step : exists n1, few s1 n1 /\ n1 + total_failing paths ops <= n + total_failing paths (o :: ops)).
    { destruct o as [p|p|b|stats reads]; cbn [total_failing step] in *.
      - injection E as <- <-. exists n. split; [|lia]. destruct (add_log_spec s p I) as (_ & _ & _ & E1 & E3). destruct Fw. split; [congruence|lia].
      - injection E as <- <-. exists n. split; [|lia]. destruct (del_log_spec s p I) as (_ & _ & _ & E1 & E3). destruct Fw. split; [congruence|lia].
      - injection E as <- <-. exists n. split; [|lia]. destruct Fw. split; auto.
      - pose proof (failing_in_incl stats reads (logs s) paths (i_nodup _ I) Inc) as Le. rewrite (failing_in_split _ _ (logs s)) in Le.
        pose proof (reads_fail_nonneg reads (logs s)). pose proof (looks_fail_nonneg stats (logs s)).
        exists (n + looks_fail (logs s) stats + reads_fail (logs s) reads). split; [|lia].
        destruct Fw as [Ei Rg]. rewrite Ei in E.
        destruct (get_modified_spec stats F1 (logs s) s I (i_nodup _ I) (incl_refl _)) as (t & q & E1 & _ & _ & _ & (keep & K) & _).
        pose proof (get_modified_few stats (logs s) s n (conj Ei Rg) ltac:(lia)) as M. rewrite E1 in E, M. cbn [fst] in M.
        destruct (read_all t reads q) as [[t2 q2] ok] eqn:E3. pose proof (reads_fail_filter reads keep (logs s)) as Lf. rewrite <- K in Lf.
        pose proof (read_all_few reads q t _ M ltac:(lia) _ _ _ E3) as M2.
        destruct ok; injection E as <- <-; (eapply few_le; [exact M2|lia]). }
    destruct Step as (n1 & Fw1 & Le). eapply few_le; [eapply (IH s1 n1); eauto; lia|lia].
Qed.
