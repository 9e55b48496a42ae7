(** Lemmas about the observer model. *)
From Coq Require Import QArith Qminmax Lqa.
From Verif Require Import Base Ticket_Model FailManager_Model FailManager_Spec FailManager_Proofs
  Observer_Model Observer_Spec.
Open Scope Z_scope.

(** ** the event queue *)
Lemma gone_stays h o op : ob_gone o = true -> ob_gone (ob_step h o op) = true.
Proof.
  intros H. destruct op; cbn; auto.
  - now rewrite H.
  - destruct (ob_active o && ob_notify o); cbn; auto.
  - destruct (negb (ob_notify o)); auto. destruct (_ || force); cbn; auto.
  - destruct (_ || _); cbn; auto.
Qed.
Lemma gone_run h ops : forall o, ob_gone o = true -> ob_gone (ob_run h o ops) = true.
Proof. induction ops as [|op ops IH]; intros o H; cbn; auto. apply IH, gone_stays, H. Qed.

Lemma fifo_step h o op : ob_gone (ob_step h o op) = false ->
  (map fst (ob_done o) ++ ob_queue o) ++ entered h o op
  = map fst (ob_done (ob_step h o op)) ++ ob_queue (ob_step h o op).
Proof.
  intros G. destruct op; cbn in *.
  - now rewrite app_assoc.
  - destruct (ob_gone o || ob_paused o); [now rewrite app_nil_r|].
    destruct (ob_queue o) as [|ev q] eqn:E; [rewrite E; now rewrite !app_nil_r|].
    destruct (h (ob_done o) ev) as [r more]. cbn. rewrite map_app, <- !app_assoc. reflexivity.
  - now rewrite app_nil_r.
  - destruct (ob_active o && ob_notify o); cbn; [now rewrite app_assoc | now rewrite app_nil_r].
  - rewrite app_nil_r. destruct (negb (ob_notify o)); [|reflexivity]. destruct (_ || force); reflexivity.
  - rewrite app_nil_r. destruct (_ || _); [discriminate|reflexivity].
Qed.
Lemma fifo_run h ops : forall o, ob_gone (ob_run h o ops) = false ->
  (map fst (ob_done o) ++ ob_queue o) ++ entered_run h o ops
  = map fst (ob_done (ob_run h o ops)) ++ ob_queue (ob_run h o ops).
Proof.
  unfold ob_run. induction ops as [|op ops IH]; intros o G; cbn [entered_run fold_left]; [now rewrite app_nil_r|].
  cbn [fold_left] in G. rewrite <- IH by exact G. rewrite <- fifo_step, !app_assoc; [reflexivity|].
  destruct (ob_gone (ob_step h o op)) eqn:E; [|reflexivity].
  exfalso. pose proof (gone_run h ops _ E) as X. unfold ob_run in X. congruence.
Qed.

Lemma done_step h o op : exists l, ob_done (ob_step h o op) = ob_done o ++ l.
Proof.
  assert (Z0 : exists l, ob_done o = ob_done o ++ l) by (exists []; now rewrite app_nil_r).
  destruct op; cbn; auto.
  - destruct (ob_gone o || ob_paused o); auto. destruct (ob_queue o); auto. destruct (h _ _). cbn. eauto.
  - destruct (_ && _); cbn; auto.
  - destruct (negb _); auto. destruct (_ || _); cbn; auto.
  - destruct (_ || _); cbn; auto.
Qed.
Lemma done_run h ops : forall o, exists l, ob_done (ob_run h o ops) = ob_done o ++ l.
Proof.
  unfold ob_run. induction ops as [|op ops IH]; intros o; cbn [fold_left]; [exists []; now rewrite app_nil_r|].
  destruct (IH (ob_step h o op)) as [l ->]. destruct (done_step h o op) as [l' ->]. exists (l' ++ l). now rewrite app_assoc.
Qed.
Lemma run_app h a b o : ob_run h o (a ++ b) = ob_run h (ob_run h o a) b.
Proof. apply fold_left_app. Qed.

Lemma drain h n : forall o, ob_gone o = false -> ob_paused o = false -> (n <= length (ob_queue o))%nat ->
  let o' := ob_run h o (repeat BTake n) in
  exists rs, ob_done o' = ob_done o ++ combine (firstn n (ob_queue o)) rs /\ length rs = n
    /\ ob_gone o' = false /\ ob_paused o' = false
    /\ exists more, ob_queue o' = skipn n (ob_queue o) ++ more.
Proof.
  unfold ob_run. induction n as [|n IH]; intros o G P L; cbn [repeat fold_left firstn skipn].
  - exists []. rewrite app_nil_r. do 4 (split; auto). exists []. now rewrite app_nil_r.
  - cbn [ob_step]. rewrite G, P. cbn [orb]. destruct (ob_queue o) as [|ev q] eqn:E; [cbn in L; lia|].
    destruct (h (ob_done o) ev) as [r more] eqn:Eh.
    set (o1 := mkObs (q ++ more) _ _ _ _ _).
    destruct (IH o1) as (rs & D & Lr & G' & P' & more' & Q'); [reflexivity|reflexivity|cbn in *; rewrite app_length; lia|].
    exists (r :: rs). cbn [combine length]. rewrite D. cbn in *. rewrite <- app_assoc.
    rewrite firstn_app. replace (n - length q)%nat with 0%nat by lia. cbn. rewrite app_nil_r. split; [reflexivity|].
    split; [lia|]. split; [exact G'|]. split; [exact P'|]. rewrite Q', skipn_app.
    replace (n - length q)%nat with 0%nat by lia. cbn. exists (more ++ more'). now rewrite app_assoc.
Qed.

(** ** settings *)
Lemma settings_latest ops : forall be s,
  be_mults be = st_mults s -> match be_factor be with Some f => f | None => 1%Q end = st_factor s ->
  be_formula be = st_formula s -> be_maxtime be = st_max s -> be_rndtime be = st_rnd s ->
  (be_ev be = None \/ be_ev be = Some (mkEv (st_mults s) (st_factor s) (st_formula s) (st_max s) (st_rnd s))) ->
  let be' := fold_left set_extra ops be in let s' := fold_left latest1 ops s in
  (ops <> [] \/ be_ev be <> None) ->
  be_ev be' = Some (mkEv (st_mults s') (st_factor s') (st_formula s') (st_max s') (st_rnd s')).
Proof.
  induction ops as [|o ops IH]; intros be s H1 H2 H3 H4 H5 H6; cbn zeta; cbn [fold_left]; intros N.
  - destruct N as [N|N]; [congruence|]. destruct H6; [congruence|assumption].
  - assert (S : be_ev (set_extra be o) = Some (mkEv (st_mults (latest1 s o)) (st_factor (latest1 s o)) (st_formula (latest1 s o)) (st_max (latest1 s o)) (st_rnd (latest1 s o)))).
    { destruct o; cbn; try (rewrite ?H1, ?H2, ?H3, ?H4, ?H5; reflexivity);
      destruct (be_ev be) eqn:E; cbn; try rewrite E; try (rewrite H1, H2, H3, H4, H5; reflexivity);
      destruct H6; congruence. }
    apply IH.
    all: try (destruct o; cbn; try (destruct (be_ev be)); cbn; auto; fail).
    + right. exact S.
    + right. rewrite S. discriminate.
Qed.

Lemma increment_latest ops : forall be, be_increment (fold_left set_extra ops be)
  = fold_left (fun b o => match o with EIncrement v => v | _ => b end) ops (be_increment be).
Proof.
  induction ops as [|o ops IH]; intros be; cbn [fold_left]; [reflexivity|]. rewrite IH. f_equal.
  destruct o; cbn; try (destruct (be_ev be)); reflexivity.
Qed.

(** ** the formula *)
Lemma pow_mono a b : 0 <= a <= b -> 2 ^ a <= 2 ^ b.
Proof. intros H. apply Z.pow_le_mono_r; lia. Qed.

Lemma exponent_mono a b : 0 <= a <= b -> 0 <= (if a <? 20 then a else 20) <= (if b <? 20 then b else 20).
Proof. intros H. destruct (Z.ltb_spec a 20), (Z.ltb_spec b 20); lia. Qed.

Lemma default_mono t f a b : (0 <= t)%Q -> (0 <= f)%Q -> 0 <= a <= b ->
  (default_formula t a f <= default_formula t b f)%Q.
Proof.
  intros Ht Hf H. unfold default_formula. apply Qmult_le_compat_r; [|exact Hf].
  rewrite !(Qmult_comm t). apply Qmult_le_compat_r; [|exact Ht].
  rewrite <- Zle_Qle. apply pow_mono, exponent_mono, H.
Qed.

Lemma ev_le_max ev t c r m : ev_max ev = Some m -> is_random r ->
  match ev_rnd ev with Some d => (0 <= d)%Q | None => True end ->
  (ev_apply ev t c r <= m + match ev_rnd ev with Some d => d | None => 0 end)%Q.
Proof.
  intros Hm [R0 R1] Hd. unfold ev_apply. rewrite Hm. set (base := match ev_mults ev with [] => _ | _ => _ end).
  pose proof (Q.le_min_r base m). destruct (ev_rnd ev) as [d|]; [|lra].
  assert (r * d <= 1 * d)%Q by (apply Qmult_le_compat_r; lra). lra.
Qed.

Lemma ev_ge ev t c r : ev_mults ev = [] -> is_random r ->
  match ev_rnd ev with Some d => (0 <= d)%Q | None => True end ->
  ((match ev_max ev with Some m => Qmin t m | None => t end) <= ev_apply ev t c r)%Q.
Proof.
  intros Hm [R0 R1] Hd. unfold ev_apply. rewrite Hm.
  set (f := match ev_formula ev with Some _ => _ | None => _ end).
  pose proof (Q.le_max_l t f).
  assert (B : ((match ev_max ev with Some m => Qmin t m | None => t end) <= match ev_max ev with Some m => Qmin (Qmax t f) m | None => Qmax t f end)%Q).
  { destruct (ev_max ev); [|exact H]. apply Q.min_le_compat_r. exact H. }
  destruct (ev_rnd ev) as [d|]; [|exact B].
  assert (0 <= r * d)%Q by (apply Qmult_le_0_compat; lra). lra.
Qed.

Lemma ev_mono ev t a b r : ev_mults ev = [] -> ev_formula ev = None -> (0 <= ev_factor ev)%Q -> (0 <= t)%Q ->
  0 <= a <= b -> (ev_apply ev t a r <= ev_apply ev t b r)%Q.
Proof.
  intros Hm Hf H0 Ht H. unfold ev_apply. rewrite Hm, Hf.
  assert (B : (Qmax t (default_formula t a (ev_factor ev)) <= Qmax t (default_formula t b (ev_factor ev)))%Q).
  { apply Q.max_le_compat_l. now apply default_mono. }
  assert (C : (match ev_max ev with Some m => Qmin (Qmax t (default_formula t a (ev_factor ev))) m | None => Qmax t (default_formula t a (ev_factor ev)) end
     <= match ev_max ev with Some m => Qmin (Qmax t (default_formula t b (ev_factor ev))) m | None => Qmax t (default_formula t b (ev_factor ev)) end)%Q).
  { destruct (ev_max ev); [|exact B]. apply Q.min_le_compat_r. exact B. }
  destruct (ev_rnd ev); [|exact C]. lra.
Qed.

Lemma ev_exact ev t c r : ev_mults ev = [] -> ev_formula ev = None -> ev_rnd ev = None -> (1 <= ev_factor ev)%Q -> (0 <= t)%Q -> 0 <= c ->
  (ev_apply ev t c r == let d := t * inject_Z (2 ^ Z.min c 20) * ev_factor ev in
                        match ev_max ev with Some m => Qmin d m | None => d end)%Q.
Proof.
  intros Hm Hf Hr H0 Ht Hc. unfold ev_apply. rewrite Hm, Hf, Hr. cbn zeta.
  assert (D : default_formula t c (ev_factor ev) = (t * inject_Z (2 ^ Z.min c 20) * ev_factor ev)%Q).
  { unfold default_formula. destruct (Z.ltb_spec c 20); [rewrite Z.min_l by lia | rewrite Z.min_r by lia]; reflexivity. }
  rewrite D. set (d := (t * _ * _)%Q).
  assert (L : (t <= d)%Q).
  { unfold d. assert (1 <= inject_Z (2 ^ Z.min c 20))%Q by (change 1%Q with (inject_Z 1); rewrite <- Zle_Qle; apply (pow_mono 0); lia).
    assert (t * 1 <= t * inject_Z (2 ^ Z.min c 20))%Q by (rewrite !(Qmult_comm t); apply Qmult_le_compat_r; lra).
    assert (t * inject_Z (2 ^ Z.min c 20) * 1 <= t * inject_Z (2 ^ Z.min c 20) * ev_factor ev)%Q.
    { rewrite !(Qmult_comm (t * inject_Z (2 ^ Z.min c 20))%Q). apply Qmult_le_compat_r; lra. }
    lra. }
  pose proof (Q.max_r t d L) as M. destruct (ev_max ev); [|exact M]. now rewrite M.
Qed.

Lemma last_nth (l : list Q) d : l <> [] -> nth (length l - 1) l d = last l d.
Proof.
  intros N. induction l as [|x l IH]; [congruence|]. destruct l as [|y l]; [reflexivity|].
  cbn [length last]. replace (S (S (length l)) - 1)%nat with (S (length (y :: l) - 1)) by (cbn; lia).
  cbn [nth]. apply IH. discriminate.
Qed.

Lemma pick_index l c : l <> [] -> 0 <= c -> pick_mult l c = nth (Z.to_nat (Z.min c (Z.of_nat (length l) - 1))) l 0%Q.
Proof.
  intros N H. assert (0 < length l)%nat by (destruct l; [congruence|cbn; lia]). unfold pick_mult.
  destruct (Z.ltb_spec c (Z.of_nat (length l))).
  - f_equal. f_equal. lia.
  - rewrite <- last_nth by exact N. f_equal. lia.
Qed.

(** ** failureFound *)
Lemma extra_retry_bounds bc : 0 <= bc -> 1 <= extra_retry bc.
Proof.
  intros H. unfold extra_retry. assert (0 <= 2 ^ (if bc <? 20 then bc else 20) / 2).
  { apply Z.div_pos; [|lia]. apply Z.pow_nonneg. lia. }
  lia.
Qed.
Lemma extra_retry_mono a b : 0 <= a <= b -> extra_retry a <= extra_retry b.
Proof.
  intros H. unfold extra_retry. assert (2 ^ (if a <? 20 then a else 20) / 2 <= 2 ^ (if b <? 20 then b else 20) / 2).
  { apply Z.div_le_mono; [lia|]. apply pow_mono, exponent_mono, H. }
  lia.
Qed.
Lemma extra_retry_exact bc : 1 <= bc <= 20 -> extra_retry bc = 2 ^ (bc - 1) + 1.
Proof.
  intros H. unfold extra_retry. assert (E : (if bc <? 20 then bc else 20) = bc) by (destruct (Z.ltb_spec bc 20); lia).
  rewrite E. f_equal. replace (2 ^ bc) with (2 ^ (bc - 1) * 2); [apply Z.div_mul; lia|].
  replace bc with (Z.succ (bc - 1)) at 2 by lia. rewrite Z.pow_succ_r by lia. lia.
Qed.

Lemma weight_eq bc m : 1 <= bc -> Z.min (extra_retry bc) m - 1 = weight bc m.
Proof.
  intros H1. unfold weight. destruct (Z.le_gt_cases bc 20).
  - rewrite extra_retry_exact, (Z.min_l bc 20) by lia. lia.
  - rewrite (Z.min_r bc 20) by lia. replace (extra_retry bc) with (2 ^ 19 + 1); [cbn; lia|].
    unfold extra_retry. replace (bc <? 20) with false by (symmetry; apply Z.ltb_ge; lia). reflexivity.
Qed.

(** ** an unforced stop *)
Definition kept (E : list nat) (o : observer) : Prop :=
  (ob_gone o = false -> exists more, map fst (ob_done o) ++ ob_queue o = E ++ more)
  /\ (ob_gone o = true \/ ob_active o = false -> exists more, map fst (ob_done o) = E ++ more).

Lemma kept_step h E o op : op <> BStopEnd true -> kept E o -> kept E (ob_step h o op).
Proof.
  intros N [K1 K2]. split.
  - intros G. assert (Go : ob_gone o = false).
    { destruct (ob_gone o) eqn:X; [|reflexivity]. apply (gone_stays h o op) in X. congruence. }
    destruct (K1 Go) as [m M]. rewrite <- fifo_step by exact G. rewrite M. exists (m ++ entered h o op). now rewrite app_assoc.
  - assert (D : forall m, map fst (ob_done o) = E ++ m -> exists more, map fst (ob_done (ob_step h o op)) = E ++ more).
    { intros m M. destruct (done_step h o op) as [l ->]. rewrite map_app, M, <- app_assoc. eauto. }
    intros H. destruct (ob_gone o) eqn:Go; [destruct K2 as [m M]; eauto|].
    destruct (ob_active o) eqn:Ao; [|destruct K2 as [m M]; eauto].
    destruct (K1 eq_refl) as [m M].
    assert (Q : ob_queue o = [] -> exists more, map fst (ob_done (ob_step h o op)) = E ++ more).
    { intros Q. rewrite Q, app_nil_r in M. eauto. }
    destruct op; cbn [ob_step] in *.
    + cbn in H. rewrite Go, Ao in H. destruct H; discriminate.
    + destruct (_ || _); [rewrite Go, Ao in H; destruct H; discriminate|]. destruct (ob_queue o); [now apply Q|].
      destruct (h (ob_done o) n) as [rs mr]. cbn in H. rewrite Go, Ao in H. destruct H; discriminate.
    + cbn in H. rewrite Go, Ao in H. destruct H; discriminate.
    + destruct (_ && _); cbn in H; rewrite Go, Ao in H; destruct H; discriminate.
    + destruct (negb _); [|rewrite Go, Ao in H; destruct H; discriminate].
      destruct force; [congruence|]. destruct (ob_queue o); [now apply Q|]. cbn in H. rewrite Go, Ao in H. destruct H; discriminate.
    + destruct (ob_queue o); [now apply Q|]. rewrite Ao in H. cbn in H. rewrite andb_false_r in H. rewrite Go, Ao in H. destruct H; discriminate.
Qed.
Lemma kept_run h E ops : unforced ops -> forall o, kept E o -> kept E (ob_run h o ops).
Proof. unfold ob_run. induction 1 as [|op ops N _ IH]; intros o K; cbn [fold_left]; auto. apply IH. now apply kept_step. Qed.
