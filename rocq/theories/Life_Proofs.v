(** Proofs about the life of server processes. *)
From Coq Require Import Arith.
From Verif Require Import Base Life_Model Life_Spec.
Local Open Scope nat_scope.

Lemma nth_upd_same {A} i (x y : A) l : nth_error l i = Some y -> nth_error (upd i x l) i = Some x.
Proof. intros E. unfold upd. assert (L : i < length l) by (apply nth_error_Some; congruence). rewrite nth_error_app2; rewrite firstn_length; [|lia]. replace (i - Nat.min i (length l)) with 0 by lia. reflexivity. Qed.
Lemma nth_firstn {A} i j (l : list A) : j < i -> nth_error (firstn i l) j = nth_error l j.
Proof. revert j l. induction i as [|i IH]; intros j l H; [lia|]. destruct l as [|x l]; [now destruct j|]. destruct j as [|j]; [reflexivity|]. cbn. apply IH. lia. Qed.
Lemma nth_skipn {A} n (l : list A) k : nth_error (skipn n l) k = nth_error l (n + k).
Proof. revert l. induction n as [|n IH]; intros l; [reflexivity|]. destruct l as [|x l]; [now destruct k|]. cbn. apply IH. Qed.
Lemma nth_upd_other {A} i j (x y : A) l : nth_error l i = Some y -> i <> j -> nth_error (upd i x l) j = nth_error l j.
Proof.
  intros E N. unfold upd. assert (L : i < length l) by (apply nth_error_Some; congruence).
  destruct (lt_dec j i) as [H|H].
  - rewrite nth_error_app1; [now apply nth_firstn|]. rewrite firstn_length. lia.
  - rewrite nth_error_app2; rewrite firstn_length; [|lia]. replace (j - Nat.min i (length l)) with (S (j - S i)) by lia. cbn [nth_error]. rewrite nth_skipn. f_equal. lia.
Qed.
Lemma run_app w a b : run w (a ++ b) = run (run w a) b.
Proof. apply fold_left_app. Qed.

(** ** What one label does: to one process and the two files *)
Definition local (x : label) (i : nat) (p : proc) (w : world) : proc * option nat * option nat :=
  match x with
  | Go _ o => go o i p w
  | Sig _ qr => let '(p1, k) := signal qr p (sockfile w) in (p1, pidfile w, k)
  | CmdStop _ qr => let '(p1, k) := command_stop qr p (sockfile w) in (p1, pidfile w, k)
  | Cfg _ => (configure p, pidfile w, sockfile w)
  | Kill _ => (if ended (pc p) then p else at_place Killed p, pidfile w, sockfile w)
  | Start _ => (p, pidfile w, sockfile w)
  end.
Lemma step_local x i p w : concerns i x -> proc_at w i p ->
  step w x = mkWd (snd (fst (local x i p w))) (snd (local x i p w)) (upd i (fst (fst (local x i p w))) (procs w)).
Proof.
  unfold proc_at. intros C E. destruct x as [f|j o|j qr|j qr|j|j]; cbn [concerns] in C; [contradiction| | | | |]; subst j; cbn [step local]; rewrite E.
  - now destruct (go o i p w) as [[p1 pid] k].
  - now destruct (signal qr p (sockfile w)) as [p1 k].
  - now destruct (command_stop qr p (sockfile w)) as [p1 k].
  - reflexivity.
  - reflexivity.
Qed.
Lemma step_none x i w : concerns i x -> nth_error (procs w) i = None -> step w x = w.
Proof. intros C E. destruct x as [f|j o|j qr|j qr|j|j]; cbn [concerns] in C; [contradiction| | | | |]; subst j; cbn [step]; now rewrite E. Qed.
Lemma who x : (exists f, x = Start f) \/ exists i, concerns i x.
Proof. destruct x; cbn; eauto. Qed.
(** a process after a step of somebody *)
Lemma proc_step w x i p' : proc_at (step w x) i p' ->
  (exists p, proc_at w i p /\ concerns i x /\ p' = fst (fst (local x i p w))) \/ (proc_at w i p' /\ ~ concerns i x) \/ (exists f, x = Start f /\ p' = new_proc f /\ i = length (procs w)).
Proof.
  intros H. destruct (who x) as [[f ->]|[j C]].
  - cbn [step] in H. unfold proc_at in *. cbn [procs] in H. destruct (lt_dec i (length (procs w))) as [L|L].
    + rewrite nth_error_app1 in H by exact L. right. left. split; auto.
    + rewrite nth_error_app2 in H by lia. destruct (i - length (procs w)) as [|k] eqn:E; [|destruct k; discriminate]. cbn in H. injection H as <-. right. right. exists f. repeat split; auto. lia.
  - destruct (nth_error (procs w) j) as [p|] eqn:E.
    + rewrite (step_local x j p w C E) in H. unfold proc_at in H. cbn [procs] in H. destruct (Nat.eq_dec j i) as [<-|N].
      * rewrite (nth_upd_same _ _ _ _ E) in H. injection H as <-. left. exists p. auto.
      * rewrite (nth_upd_other _ _ _ _ _ E N) in H. right. left. split; auto. intros C2. destruct x; cbn in C, C2; congruence.
    + rewrite (step_none x j w C E) in H. destruct (Nat.eq_dec j i) as [<-|N]; [unfold proc_at in H; congruence|]. right. left. split; auto. intros C2. destruct x; cbn in C, C2; congruence.
Qed.
(** the process of a label after its step *)
Lemma own_step w x i p : concerns i x -> proc_at w i p -> proc_at (step w x) i (fst (fst (local x i p w))).
Proof. intros C E. rewrite (step_local x i p w C E). unfold proc_at. cbn [procs]. now apply nth_upd_same with (y := p). Qed.
Lemma other_step w x i p : ~ concerns i x -> proc_at w i p -> proc_at (step w x) i p.
Proof.
  intros C E. destruct (who x) as [[f ->]|[j D]].
  - unfold proc_at in *. cbn [step procs]. rewrite nth_error_app1; auto. apply nth_error_Some. congruence.
  - assert (N : j <> i) by (intros ->; contradiction). destruct (nth_error (procs w) j) as [q|] eqn:F.
    + rewrite (step_local x j q w D F). unfold proc_at. cbn [procs]. now rewrite (nth_upd_other _ _ _ _ _ F N).
    + now rewrite (step_none x j w D F).
Qed.
(** the files after a step *)
Lemma files_step w x : (sockfile (step w x) = sockfile w /\ pidfile (step w x) = pidfile w) \/
  exists i p, proc_at w i p /\ concerns i x /\ sockfile (step w x) = snd (local x i p w) /\ pidfile (step w x) = snd (fst (local x i p w)).
Proof.
  destruct (who x) as [[f ->]|[j C]]; [left; auto|]. destruct (nth_error (procs w) j) as [p|] eqn:E.
  - right. exists j, p. rewrite (step_local x j p w C E). auto.
  - left. now rewrite (step_none x j w C E).
Qed.

(** ** quit *)
Lemma quit_full p k : quitted p = false -> observer p = true -> hasasync p = true ->
  quit None p k = (mkP (pc p) (force p) false true false false false (isinit p) false (if isactive p then false else isloop p) false false
    (log p ++ [LComm; LObs; LJails; LForce] ++ (if db p then [LDb] else []) ++ [LSock]), (if isinit p then None else k), false).
Proof.
  intros Q O H. destruct p as [c f h q o a cm ii ia il j d lg]. cbn in Q, O, H. subst. unfold quit. cbn [quitted]. cbn [stages fold_left]. cbn. destruct d; cbn; unfold close_flags, stop_comm, close_sock, note; cbn; rewrite <- !app_assoc; reflexivity.
Qed.
Lemma quit_twice qr p k : quitted p = true -> quit qr p k = (p, k, false).
Proof. intros H. unfold quit. now rewrite H. Qed.
(** what quit cannot change, whatever raises *)
Definition same (p q : proc) : Prop := pc q = pc p /\ force q = force p /\ isinit q = isinit p.
Lemma stage_same f p k : In f stages -> same p (fst (f (p, k))) /\ (snd (f (p, k)) = k \/ isinit p = true /\ hasasync p = true /\ snd (f (p, k)) = None).
Proof.
  intros I. unfold stages in I. unfold same. destruct I as [<-|[<-|[<-|[<-|[<-|[<-|[<-|[]]]]]]]]; cbn;
    try (destruct (hasasync p)); try (destruct (observer p)); try (destruct (db p)); cbn; auto; try (split; auto; unfold close_sock; destruct (isinit p); auto).
Qed.
Lemma stages_same fs : (forall f, In f fs -> In f stages) -> forall p k, let r := fold_left (fun x f => f x) fs (p, k) in
  same p (fst r) /\ (snd r = k \/ isinit p = true /\ snd r = None).
Proof.
  induction fs as [|f fs IH]; intros St p k; [cbn; unfold same; auto|]. cbn [fold_left]. cbv zeta.
  destruct (stage_same f p k (St f (or_introl eq_refl))) as [(A1 & A2 & A3) B]. destruct (f (p, k)) as [p1 k1] eqn:E. cbn [fst snd] in *.
  destruct (IH (fun g H => St g (or_intror H)) p1 k1) as [(C1 & C2 & C3) D]. split; [unfold same; rewrite C1, C2, C3; auto|].
  destruct D as [D|[D1 D2]]; [|right; rewrite <- A3; auto]. rewrite D. destruct B as [->|(B1 & _ & ->)]; auto.
Qed.
Lemma quit_same qr p k : let r := quit qr p k in same p (fst (fst r)) /\ (snd (fst r) = k \/ isinit p = true /\ snd (fst r) = None).
Proof.
  cbv zeta. unfold quit. destruct (quitted p); [cbn; unfold same; auto|].
  set (p0 := mkP _ _ _ true _ _ _ _ _ _ _ _ _). assert (S0 : same p p0) by (unfold same, p0; auto).
  assert (G : forall fs, (forall f, In f fs -> In f stages) -> same p (fst (fold_left (fun x f => f x) fs (p0, k))) /\ (snd (fold_left (fun x f => f x) fs (p0, k)) = k \/ isinit p = true /\ snd (fold_left (fun x f => f x) fs (p0, k)) = None)).
  { intros fs H. destruct (stages_same fs H p0 k) as [(A1 & A2 & A3) B]. destruct S0 as (S1 & S2 & S3). unfold same. rewrite A1, A2, A3. rewrite S3 in B. auto. }
  destruct qr as [n|]; cbn [fst snd].
  - apply G. intros f H. rewrite <- (firstn_skipn n stages). apply in_app_iff. now left.
  - apply G. auto.
Qed.

(** ** Where the flags belong *)
Definition early (c : place) : bool := match c with PInit | PPid | PObs | PAsync => true | _ => false end.
Definition before_init (c : place) : bool := match c with PInit | PPid | PObs | PAsync | PCheck | PRemove | PBind | PListen => true | _ => false end.
Definition mid (c : place) : bool := match c with PCheck | PRemove | PBind | PListen | POnstart | PLoop => true | _ => false end.
(** at every reachable point; not yet told to stop: all is there *)
Definition pinv (p : proc) : Prop :=
  (before_init (pc p) = true -> isinit p = false) /\
  (pc p = POnstart \/ pc p = PLoop \/ pc p = PStop -> isinit p = true) /\
  (pc p = PRemove -> force p = true) /\
  (quitted p = false -> early (pc p) = false -> ended (pc p) = false -> handlers p = true /\ observer p = true /\ hasasync p = true) /\
  (quitted p = false -> pc p = POnstart \/ pc p = PLoop -> isactive p = true /\ isloop p = true /\ comm p = true) /\
  (quitted p = false -> pc p <> PInit -> ended (pc p) = false -> handlers p = true) /\
  (quitted p = false -> pc p = PAsync -> observer p = true) /\
  (quitted p = false -> mid (pc p) = true -> comm p = true).
Lemma pinv_new f : pinv (new_proc f).
Proof. unfold pinv, new_proc. cbn. repeat split; try discriminate; auto; intuition discriminate. Qed.
Lemma quit_quitted qr p k : quitted (fst (fst (quit qr p k))) = true.
Proof.
  unfold quit. destruct (quitted p) eqn:Q; [exact Q|].
  assert (G : forall fs, (forall f, In f fs -> In f stages) -> forall x, quitted (fst x) = true -> quitted (fst (fold_left (fun x f => f x) fs x)) = true).
  { induction fs as [|f fs IH]; intros St [p1 k1] H; [exact H|]. cbn [fold_left]. apply IH; [intros g I; apply St; now right|].
    specialize (St f (or_introl eq_refl)). cbn [fst] in H. unfold stages in St. destruct St as [<-|[<-|[<-|[<-|[<-|[<-|[<-|[]]]]]]]]; cbn; try (destruct (hasasync p1)); try (destruct (observer p1)); try (destruct (db p1)); cbn; auto. }
  destruct qr as [n|]; cbn [fst snd]; apply G; auto. intros f H. rewrite <- (firstn_skipn n stages). apply in_app_iff. now left.
Qed.
Lemma pinv_moved p q : pinv p -> quitted q = true -> isinit q = isinit p -> pc q = pc p -> force q = force p -> pinv q.
Proof.
  intros (A & B & C & _) Q I E F. unfold pinv. rewrite I, E, F. repeat split; auto; congruence.
Qed.
Lemma pinv_end p c : pinv p -> ended c = true -> pinv (at_place c p).
Proof.
  intros (A & B & C & D & E & F & G & K) N. unfold pinv, at_place; cbn. destruct c; try discriminate; repeat split; intros; try discriminate; repeat match goal with H : _ \/ _ |- _ => destruct H end; discriminate.
Qed.
Ltac pv := unfold pinv, at_place in *; cbn in *; repeat split; intros; try discriminate; try congruence;
  repeat match goal with H : _ \/ _ |- _ => destruct H end; try discriminate; try congruence; auto; try match goal with D : _ |- _ => solve [apply D; auto; discriminate] end.
Lemma pinv_go o i p w : pinv p -> pinv (fst (fst (go o i p w))).
Proof.
  intros I. pose proof I as (A & B & C & D & E & F & G & K). unfold go. destruct (pc p) eqn:P; cbn [fst snd].
  - pv. - pv. - pv.
  - destruct (raises o); [|pv]. cbn [fst]. destruct (quit_same (qraises o) p (sockfile w)) as [(S1 & S2 & S3) _]. apply pinv_end; [|reflexivity]. eapply pinv_moved; eauto using quit_quitted.
  - destruct (sockfile w); [destruct (force p) eqn:Fo|]; cbn [fst]; pv.
  - pv.
  - destruct (sockfile w); [|destruct (raises o)]; cbn [fst]; pv.
  - destruct (raises o); [|pv]. cbn [fst]. destruct (quit_same (qraises o) p (sockfile w)) as [(S1 & S2 & S3) _]. apply pinv_end; [|reflexivity]. eapply pinv_moved; eauto using quit_quitted.
  - destruct (raises o); [|cbn [fst]; pv]. cbn [fst]. destruct (quit_same (qraises o) p (sockfile w)) as [(S1 & S2 & S3) _]. apply pinv_end; [|reflexivity]. eapply pinv_moved; eauto using quit_quitted.
  - destruct (isloop p && negb (raises o)); cbn [fst]; [exact I|pv].
  - pv.
  - destruct (quit_same (qraises o) p (sockfile w)) as [(S1 & S2 & S3) _]. pose proof (quit_quitted (qraises o) p (sockfile w)) as Q. destruct (quit (qraises o) p (sockfile w)) as [[p1 k1] bad]. cbn [fst snd] in *.
    destruct bad; unfold pinv, at_place; cbn; repeat split; intros; try discriminate; try congruence; repeat match goal with H : _ \/ _ |- _ => destruct H end; try discriminate; congruence.
  - pv.
  - exact I. - exact I. - exact I.
Qed.
Lemma pinv_local x i p w : pinv p -> pinv (fst (fst (local x i p w))).
Proof.
  intros I. destruct x as [f|j o|j qr|j qr|j|j]; cbn [local]; auto using pinv_go.
  - unfold signal. destruct (ended (pc p)); [exact I|]. destruct (handlers p); [|cbn [fst]; apply pinv_end; auto].
    destruct (quit_same qr p (sockfile w)) as [(S1 & S2 & S3) _]. pose proof (quit_quitted qr p (sockfile w)) as Q. destruct (quit qr p (sockfile w)) as [[p1 k1] bad]. cbn [fst snd] in *.
    assert (I1 : pinv p1) by (eapply pinv_moved; eauto). destruct bad; [|exact I1]. destruct (pc p); auto using pinv_end.
  - unfold command_stop. destruct (pc p) eqn:P; try exact I. destruct (isloop p && comm p); [|exact I].
    destruct (quit_same qr p (sockfile w)) as [(S1 & S2 & S3) _]. pose proof (quit_quitted qr p (sockfile w)) as Q. destruct (quit qr p (sockfile w)) as [[p1 k1] bad]. cbn [fst snd] in *.
    eapply pinv_moved; eauto.
  - cbn [fst]. unfold configure. destruct (pc p) eqn:P; try exact I. destruct (isloop p && comm p); [|exact I]. unfold pinv in *. cbn. rewrite P in *. exact I.
  - cbn [fst]. destruct (ended (pc p)); auto. apply pinv_end; auto.
Qed.
Definition winv (w : world) : Prop := forall i p, proc_at w i p -> pinv p.
Lemma winv_step w x : winv w -> winv (step w x).
Proof.
  intros W i p H. apply proc_step in H as [(q & E & C & ->)|[[E _]|(f & -> & -> & _)]].
  - apply pinv_local. eauto. - eauto. - apply pinv_new.
Qed.
Lemma winv_run l : forall w, winv w -> winv (run w l).
Proof. induction l as [|x l IH]; intros w W; [exact W|]. cbn [run fold_left]. apply IH. now apply winv_step. Qed.
Lemma winv_empty a b : winv (mkWd a b []).
Proof. intros i p H. unfold proc_at in H. cbn in H. now destruct i. Qed.
