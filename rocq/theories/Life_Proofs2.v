(** Proofs about the life of server processes: stopping, the files, the loop. *)
From Coq Require Import Arith.
From Verif Require Import Base Life_Model Life_Spec Life_Proofs.
Local Open Scope nat_scope.

(** ** Stopping *)
Lemma shut_local x i p w : shut p -> shut (fst (fst (local x i p w))).
Proof.
  intros S0. pose proof S0 as (A & B & C & D & E & F & G). destruct x as [f|j o|j qr|j qr|j|j]; cbn [local]; auto.
  - unfold go. destruct G as [G|[G|[G|[G|[G|[G|[]]]]]]]; rewrite <- G; cbn [fst snd].
    + rewrite E. cbn. unfold shut, at_place; cbn. auto 20.
    + unfold shut, close_flags, stop_comm; cbn. rewrite E. auto 20.
    + rewrite quit_twice by exact F. unfold shut, at_place; cbn. auto 20.
    + unfold shut, at_place; cbn. auto 20.
    + exact S0. + exact S0.
  - unfold signal. destruct (ended (pc p)); [exact S0|]. destruct (handlers p); [|unfold shut, at_place; cbn; auto 20]. rewrite quit_twice by exact F. exact S0.
  - unfold command_stop. destruct (pc p); try exact S0. rewrite E. exact S0.
  - unfold configure. cbn [fst]. destruct (pc p); try exact S0. rewrite E. exact S0.
  - cbn [fst]. destruct (ended (pc p)); [exact S0|]. unfold shut, at_place; cbn; auto 20.
Qed.
Lemma concerns_dec i x : {concerns i x} + {~ concerns i x}.
Proof. destruct x; cbn; auto using Nat.eq_dec. Qed.
Lemma shut_step w x i p : proc_at w i p -> shut p -> exists p', proc_at (step w x) i p' /\ shut p'.
Proof.
  intros H S0. destruct (concerns_dec i x) as [C|C].
  - eexists. split; [apply (own_step w x i p C H)|]. now apply shut_local.
  - exists p. split; auto. now apply other_step.
Qed.
Lemma shut_run l : forall w i p, proc_at w i p -> shut p -> exists p', proc_at (run w l) i p' /\ shut p'.
Proof. induction l as [|x l IH]; intros w i p H S0; [exists p; auto|]. cbn [run fold_left]. destruct (shut_step w x i p H S0) as (p' & H' & S'). eapply IH; eauto. Qed.
Definition rank (c : place) : nat := match c with PLoop => 4 | PStop => 3 | PQuit => 2 | PRmPid => 1 | _ => 0 end.
Lemma exits_local x i p w : shut p -> pc p <> Killed -> concerns i x -> (forall qr, x <> Sig i qr) -> x <> Kill i ->
  pc (fst (fst (local x i p w))) <> Killed /\ rank (pc (fst (fst (local x i p w)))) <= rank (pc p) - (match x with Go _ _ => 1 | _ => 0 end).
Proof.
  intros (A & B & C & D & E & F & G) N Cn S0 K. destruct x as [f|j o|j qr|j qr|j|j]; cbn [local concerns] in *; [contradiction| | | | |]; subst.
  - unfold go. destruct G as [G|[G|[G|[G|[G|[G|[]]]]]]]; rewrite <- G in *; cbn [fst snd].
    + rewrite E. cbn. split; [discriminate|lia].
    + cbn. split; [discriminate|lia].
    + rewrite quit_twice by exact F. cbn. split; [discriminate|lia].
    + cbn. split; [discriminate|lia].
    + split; [congruence|]. rewrite <- G. cbn. lia. + congruence.
  - now destruct (S0 qr).
  - unfold command_stop. destruct (pc p) eqn:P; cbn [fst]; rewrite ?P; try (split; [congruence|lia]). rewrite E. cbn [andb fst]. rewrite P. split; [congruence|lia].
  - unfold configure. cbn [fst]. destruct (pc p) eqn:P; rewrite ?P; try (split; [congruence|lia]). rewrite E. cbn [andb]. rewrite P. split; [congruence|lia].
  - congruence.
Qed.
Lemma exits_run i l : forall w p, proc_at w i p -> shut p -> pc p <> Killed -> undisturbed i l ->
  exists p', proc_at (run w l) i p' /\ shut p' /\ pc p' <> Killed /\ rank (pc p') <= rank (pc p) - own_steps i l.
Proof.
  induction l as [|x l IH]; intros w p H S0 N U; [exists p; split; [exact H|]; split; [exact S0|]; split; [exact N|]; unfold own_steps; cbn [run fold_left filter length]; lia|]. cbn [run fold_left].
  assert (U' : undisturbed i l) by (intros y Hy; apply U; now right). destruct (U x (or_introl eq_refl)) as [U1 U2].
  destruct (concerns_dec i x) as [C|C].
  - destruct (exits_local x i p w S0 N C U1 U2) as [N1 R1].
    destruct (IH (step w x) _ (own_step w x i p C H) (shut_local x i p w S0) N1 U') as (p' & A & B & D & E). exists p'. split; [exact A|]. split; [exact B|]. split; [exact D|].
    unfold own_steps in *. cbn [filter]. destruct x as [f|j o|j qr|j qr|j|j]; cbn [concerns] in C; try contradiction; try lia. subst j. rewrite Nat.eqb_refl. cbn [length]. lia.
  - destruct (IH (step w x) p (other_step w x i p C H) S0 N U') as (p' & A & B & D & E). exists p'. split; [exact A|]. split; [exact B|]. split; [exact D|].
    unfold own_steps in *. cbn [filter]. destruct x as [f|j o|j qr|j qr|j|j]; try exact E. cbn [concerns] in C. destruct (Nat.eqb_spec i j) as [->|]; [congruence|exact E].
Qed.

(** ** The file of the socket *)
Lemma removed x i p w k : pinv p -> concerns i x -> sockfile w = Some k -> snd (local x i p w) <> Some k -> (force p = true /\ pc p = PRemove) \/ isinit p = true.
Proof.
  intros Iv Cn S0 N. destruct x as [f|j o|j qr|j qr|j|j]; cbn [local concerns] in *; try contradiction; try (cbn [snd] in N; congruence).
  - unfold go in N. destruct (pc p) eqn:P; cbn [fst snd] in N; try congruence.
    + destruct (quit_same (qraises o) p (sockfile w)) as [_ Q]. destruct (raises o); cbn [snd] in N; [|congruence]. destruct Q as [Q|[Q _]]; auto; congruence.
    + rewrite S0 in N. destruct (force p); cbn in N; congruence.
    + left. destruct Iv as (_ & _ & R & _). auto.
    + rewrite S0 in N. cbn in N. congruence.
    + destruct (quit_same (qraises o) p (sockfile w)) as [_ Q]. destruct (raises o); cbn [snd] in N; [|congruence]. destruct Q as [Q|[Q _]]; auto; congruence.
    + destruct (quit_same (qraises o) p (sockfile w)) as [_ Q]. destruct (raises o); cbn [snd] in N; [|congruence]. destruct Q as [Q|[Q _]]; auto; congruence.
    + destruct (isloop p && negb (raises o)); cbn in N; congruence.
    + unfold close_sock in N. cbn [isinit] in N. destruct (isinit p); auto; congruence.
    + destruct (quit_same (qraises o) p (sockfile w)) as [_ Q]. destruct (quit (qraises o) p (sockfile w)) as [[p1 k1] bad]. cbn [fst snd] in *. destruct Q as [Q|[Q _]]; auto; congruence.
  - unfold signal in N. destruct (ended (pc p)); [cbn in N; congruence|]. destruct (handlers p); [|cbn in N; congruence].
    destruct (quit_same qr p (sockfile w)) as [_ Q]. destruct (quit qr p (sockfile w)) as [[p1 k1] bad]. cbn [fst snd] in *. destruct Q as [Q|[Q _]]; auto; congruence.
  - unfold command_stop in N. destruct (pc p); try (cbn in N; congruence). destruct (isloop p && comm p); [|cbn in N; congruence].
    destruct (quit_same qr p (sockfile w)) as [_ Q]. destruct (quit qr p (sockfile w)) as [[p1 k1] bad]. cbn [fst snd] in *. destruct Q as [Q|[Q _]]; auto; congruence.
Qed.
(** who has the flag has bound *)
Definition bound (p : proc) : Prop := isinit p = true \/ pc p = PListen.
Lemma bound_local x i p w : concerns i x -> bound (fst (fst (local x i p w))) -> bound p \/ snd (local x i p w) = Some i.
Proof.
  unfold bound. intros Cn B. destruct x as [f|j o|j qr|j qr|j|j]; cbn [local concerns] in *; auto.
  - unfold go in *. destruct (quit_same (qraises o) p (sockfile w)) as [(S1 & S2 & S3) _]. destruct (pc p) eqn:P; cbn [fst snd at_place isinit pc] in *; auto; try (destruct B as [B|B]; [auto|discriminate]).
    + destruct (raises o); cbn [fst at_place isinit pc] in *; destruct B as [B|B]; try discriminate. rewrite S3 in B. auto.
    + destruct (sockfile w); [destruct (force p)|]; cbn [fst at_place isinit pc] in *; destruct B as [B|B]; try discriminate; auto.
    + destruct (sockfile w); [|destruct (raises o)]; cbn [fst snd at_place isinit pc] in *; destruct B as [B|B]; try discriminate; auto.
    + destruct (raises o); cbn [fst at_place isinit pc] in *; destruct B as [B|B]; try discriminate. all: rewrite ?S3 in B; auto.
    + destruct (isloop p && negb (raises o)); cbn [fst at_place isinit pc] in *; destruct B as [B|B]; try discriminate; auto; congruence.
    + destruct (quit (qraises o) p (sockfile w)) as [[p1 k1] bad]. cbn [fst snd at_place isinit pc] in *. destruct B as [B|B]; [rewrite S3 in B; auto|]. destruct bad; discriminate.
    + destruct B as [B|B]; [auto|congruence]. + destruct B as [B|B]; [auto|congruence]. + destruct B as [B|B]; [auto|congruence].
  - unfold signal in *. destruct (ended (pc p)); [auto|]. destruct (handlers p); [|cbn in B; destruct B as [B|B]; [auto|discriminate]].
    destruct (quit_same qr p (sockfile w)) as [(S1 & S2 & S3) _]. destruct (quit qr p (sockfile w)) as [[p1 k1] bad]. cbn [fst snd] in *. left.
    destruct bad; [|rewrite S1, S3 in B; exact B]. destruct (pc p) eqn:P; cbn in B; rewrite ?S1, ?S3 in B; destruct B as [B|B]; try discriminate; auto.
  - unfold command_stop in *. left. destruct (pc p) eqn:P; cbn [fst snd] in B; try (destruct B; auto; congruence). destruct (isloop p && comm p); cbn [fst snd] in B; [|destruct B; [auto|congruence]].
    destruct (quit_same qr p (sockfile w)) as [(S1 & S2 & S3) _]. destruct (quit qr p (sockfile w)) as [[p1 k1] bad]. cbn [fst snd] in *. destruct B; [rewrite S3 in *; auto|congruence].
  - left. unfold configure in B. cbn [fst] in B. destruct (pc p) eqn:P; try (destruct B; auto; congruence). destruct (isloop p && comm p); cbn in B; (destruct B; auto; congruence).
  - left. cbn [fst] in B. destruct (ended (pc p)); auto. cbn in B. destruct B; [auto|discriminate].
Qed.
Lemma bound_before l : forall i p, proc_at (run init l) i p -> bound p -> exists l1 l2, l = l1 ++ l2 /\ sockfile (run init l1) = Some i.
Proof.
  induction l as [|x l IH] using rev_ind; intros i p H B; [unfold proc_at in H; destruct i; discriminate|].
  rewrite run_app in H. cbn [run fold_left] in H. apply proc_step in H as [(q & E & C & ->)|[[E _]|(f & -> & -> & _)]].
  - destruct (bound_local x i q _ C B) as [B'|S0].
    + destruct (IH i q E B') as (l1 & l2 & -> & K). exists l1, (l2 ++ [x]). rewrite <- app_assoc. auto.
    + exists (l ++ [x]), []. split; [now rewrite app_nil_r|]. rewrite run_app. cbn [run fold_left]. rewrite (step_local x i q _ C E). exact S0.
  - destruct (IH i p E B) as (l1 & l2 & -> & K). exists l1, (l2 ++ [x]). rewrite <- app_assoc. auto.
  - destruct B as [B|B]; discriminate.
Qed.

(** ** Starts without force, nobody told to stop *)
Definition qproc (i : nat) (p : proc) (k : option nat) : Prop :=
  force p = false /\ pc p <> PRemove /\ pc p <> PStop /\ (isinit p = true -> pc p = POnstart \/ pc p = PLoop \/ pc p = Killed) /\
  (pc p = PListen \/ pc p = POnstart \/ pc p = PLoop -> k = Some i) /\ (pc p = POnstart \/ pc p = PLoop -> isloop p = true).
Definition qinv (w : world) : Prop := forall i p, proc_at w i p -> qproc i p (sockfile w).
Lemma quiet_local x i p w : quiet x -> concerns i x -> qproc i p (sockfile w) ->
  qproc i (fst (fst (local x i p w))) (snd (local x i p w)) /\ (snd (local x i p w) = sockfile w \/ sockfile w = None).
Proof.
  intros Q C (F & R & St & I & B & L). destruct x as [f|j o|j qr|j qr|j|j]; cbn [quiet concerns local] in *; try contradiction.
  - unfold go. rewrite Q. destruct (pc p) eqn:P; cbn [fst snd]; try congruence.
    1-3: unfold qproc; cbn; repeat split; auto; try discriminate; intros H; try (apply I in H); intuition discriminate.
    + unfold qproc; cbn; repeat split; auto; try discriminate; intros H; intuition discriminate.
    + destruct (sockfile w) eqn:S0; [rewrite F|]; unfold qproc; cbn; repeat split; auto; try discriminate; intros H; try (apply I in H); intuition discriminate.
    + destruct (sockfile w) eqn:S0; unfold qproc; cbn; repeat split; auto; try discriminate; intros H; try (apply I in H); intuition discriminate.
    + unfold qproc; cbn; repeat split; auto; try discriminate.
    + unfold qproc; cbn; repeat split; auto; try discriminate.
    + rewrite L by auto. cbn. unfold qproc. rewrite P. repeat split; auto.
    + assert (I0 : isinit p = false) by (destruct (isinit p); auto; destruct (I eq_refl) as [X|[X|X]]; discriminate).
      destruct (quit_same (qraises o) p (sockfile w)) as [(S1 & S2 & S3) K]. destruct (quit (qraises o) p (sockfile w)) as [[p1 k1] bad]. cbn [fst snd] in *.
      destruct K as [->|[K _]]; [|congruence]. split; [|auto]. unfold qproc; cbn. rewrite S2, S3, I0. destruct bad; repeat split; auto; try discriminate; intros H; intuition discriminate.
    + unfold qproc; cbn; repeat split; auto; try discriminate; intros H; try (apply I in H); intuition discriminate.
    + unfold qproc. rewrite P. repeat split; auto.
    + unfold qproc. rewrite P. repeat split; auto.
    + unfold qproc. rewrite P. repeat split; auto.
  - split; [|auto]. cbn [fst snd]. unfold configure. destruct (pc p) eqn:P; try (unfold qproc; rewrite P; repeat split; auto; fail).
    destruct (isloop p && comm p); unfold qproc; cbn; rewrite ?P; repeat split; auto.
  - split; [|auto]. cbn [fst snd]. destruct (ended (pc p)) eqn:E; [unfold qproc; repeat split; auto|]. unfold qproc; cbn. repeat split; auto; try discriminate; intros H; intuition discriminate.
Qed.
Lemma qproc_other i p k k' : (k' = k \/ k = None) -> qproc i p k -> qproc i p k'.
Proof. intros H (F & R & St & I & B & L). unfold qproc. repeat split; auto. intros X. specialize (B X). destruct H; congruence. Qed.
Lemma quiet_step w x : quiet x -> qinv w -> qinv (step w x) /\ (sockfile (step w x) = sockfile w \/ sockfile w = None).
Proof.
  intros Q W. assert (K : sockfile (step w x) = sockfile w \/ sockfile w = None).
  { destruct (files_step w x) as [[-> _]|(i & p & E & C & -> & _)]; auto. apply quiet_local; auto. }
  split; [|exact K]. intros i p H. apply proc_step in H as [(q & E & C & ->)|[[E _]|(f & -> & -> & _)]].
  - rewrite (step_local x i q w C E). cbn [sockfile]. apply quiet_local; auto.
  - apply (qproc_other i p (sockfile w)); auto.
  - cbn in Q. subst f. unfold qproc, new_proc; cbn. repeat split; auto; try discriminate; intros H; intuition discriminate.
Qed.
Lemma quiet_run l : forall w, Forall quiet l -> qinv w -> qinv (run w l) /\ forall k, sockfile w = Some k -> sockfile (run w l) = Some k.
Proof.
  induction l as [|x l IH]; intros w Q W; [auto|]. inversion Q; subst. cbn [run fold_left]. destruct (quiet_step w x) as [W1 K]; auto.
  destruct (IH (step w x)) as [A B]; auto. split; [exact A|]. intros k E. apply B. destruct K; congruence.
Qed.

(** ** One process alone *)
Section Alone.
Context (k0 : option nat) (f : bool).
Definition left_ok (p : proc) (k : option nat) : Prop :=
  ((f = true \/ k0 = None) /\ k = None) \/ (f = false /\ k0 <> None /\ k = k0 /\ isinit p = false).
Definition ainv (p : proc) (pid k : option nat) : Prop :=
  pinv p /\ force p = f /\
  match pc p with
  | PInit | PPid | PObs | PAsync | PCheck => k = k0
  | PRemove => f = true
  | PBind => (f = true \/ k0 = None) /\ k = None
  | PListen | POnstart | PLoop | PStop => f = true \/ k0 = None
  | PQuit | PRmPid => left_ok p k
  | Exited => left_ok p k /\ pid = None
  | Escaped | Killed => True
  end.
Lemma alone_local x p w : concerns 0 x -> ainv p (pidfile w) (sockfile w) -> ainv (fst (fst (local x 0 p w))) (snd (fst (local x 0 p w))) (snd (local x 0 p w)).
Proof.
  intros C (I & F & A). split; [now apply pinv_local|]. pose proof I as (I1 & I2 & _). destruct x as [f'|j o|j qr|j qr|j|j]; cbn [local concerns] in *; [contradiction| | | | |].
  - unfold go. destruct (quit_same (qraises o) p (sockfile w)) as [(S1 & S2 & S3) K]. destruct (pc p) eqn:P; cbn [fst snd at_place force pc isinit]; auto.
    + destruct (raises o); cbn; auto. split; [congruence|exact Logic.I].
    + destruct (sockfile w) eqn:S0; [destruct (force p) eqn:F'|]; cbn; (split; [congruence|]); auto.
      * unfold left_ok. right. rewrite <- A. split; [congruence|]. split; [discriminate|]. split; auto.
    + destruct A as [A1 A2]. rewrite A2. destruct (raises o); cbn; auto. split; auto. left. auto.
    + destruct (raises o); cbn; auto. split; [congruence|exact Logic.I].
    + destruct (raises o); cbn; auto. split; [congruence|exact Logic.I].
    + destruct (isloop p && negb (raises o)); cbn; rewrite ?P; auto.
    + split; auto. unfold left_ok, close_sock. cbn. rewrite I2 by auto. left. auto.
    + destruct (quit (qraises o) p (sockfile w)) as [[p1 k1] bad]. cbn [fst snd] in *. destruct bad; cbn; (split; [congruence|]); [exact Logic.I|]. unfold left_ok in *. cbn. rewrite S3.
      destruct A as [[A1 A2]|(A1 & A2 & A3 & A4)]; destruct K as [->|[K1 ->]]; auto. congruence.
    + rewrite P. auto.
    + rewrite P. auto.
    + rewrite P. auto.
  - unfold signal. destruct (ended (pc p)) eqn:E; [cbn; auto|]. destruct (handlers p); [|cbn; auto].
    destruct (quit_same qr p (sockfile w)) as [(S1 & S2 & S3) K]. destruct (quit qr p (sockfile w)) as [[p1 k1] bad]. cbn [fst snd] in *.
    assert (G : match pc p1 with PInit | PPid | PObs | PAsync | PCheck => k1 = k0 | PRemove => f = true | PBind => (f = true \/ k0 = None) /\ k1 = None
      | PListen | POnstart | PLoop | PStop => f = true \/ k0 = None | PQuit | PRmPid => left_ok p1 k1 | Exited => left_ok p1 k1 /\ pidfile w = None | Escaped | Killed => True end).
    { rewrite S1. destruct (pc p) eqn:P; auto; try discriminate.
      1-5: destruct K as [->|[K _]]; [exact A|]; rewrite I1 in K by reflexivity; discriminate.
      - destruct A as [A1 A2]. split; auto. destruct K as [->|[_ ->]]; auto.
      - unfold left_ok in *. rewrite S3. destruct A as [[A1 A2]|(A1 & A2 & A3 & A4)]; destruct K as [->|[K1 ->]]; auto. congruence.
      - unfold left_ok in *. rewrite S3. destruct A as [[A1 A2]|(A1 & A2 & A3 & A4)]; destruct K as [->|[K1 ->]]; auto. congruence. }
    destruct bad; [|split; [congruence|exact G]]. destruct (pc p) eqn:P; cbn; try (split; [congruence|exact Logic.I]). split; [congruence|exact G].
  - unfold command_stop. destruct (pc p) eqn:P; cbn [fst snd]; rewrite ?P; auto. destruct (isloop p && comm p); cbn [fst snd]; rewrite ?P; auto.
    destruct (quit_same qr p (sockfile w)) as [(S1 & S2 & S3) K]. destruct (quit qr p (sockfile w)) as [[p1 k1] bad]. cbn [fst snd] in *. rewrite S1, P. split; [congruence|exact A].
  - cbn [fst snd]. unfold configure. destruct (pc p) eqn:P; rewrite ?P; auto. destruct (isloop p && comm p); cbn; rewrite ?P; auto.
  - cbn [fst snd]. destruct (ended (pc p)) eqn:E; cbn; auto.
Qed.
Lemma alone_run l : forall w p, Forall no_start l -> procs w = [p] -> ainv p (pidfile w) (sockfile w) -> exists p', procs (run w l) = [p'] /\ ainv p' (pidfile (run w l)) (sockfile (run w l)).
Proof.
  induction l as [|x l IH]; intros w p N E A; [exists p; auto|]. inversion N as [|? ? N1 N2]; subst. cbn [run fold_left].
  destruct (who x) as [[g ->]|[i C]]; [contradiction|]. destruct i as [|i].
  - assert (P : proc_at w 0 p) by (unfold proc_at; now rewrite E). pose proof (alone_local x p w C A) as A1.
    apply (IH (step w x) (fst (fst (local x 0 p w)))); auto; rewrite (step_local x 0 p w C P); cbn; auto. rewrite E. reflexivity.
  - rewrite (step_none x (S i) w C); [now apply IH with p|]. rewrite E. now destruct i.
Qed.
End Alone.

(** ** The loop *)
Local Open Scope Z_scope.
Lemma excess_app a b : excess (a ++ b) = excess a + excess b.
Proof. induction a as [|r a IH]; [reflexivity|]. unfold excess in *. cbn [app fold_right]. destruct r; rewrite IH; lia. Qed.
Lemma snoc_split {A} (l a b : list A) r : l ++ [r] = a ++ b -> b = [] \/ exists b', b = b' ++ [r] /\ l = a ++ b'.
Proof.
  intros H. destruct b as [|y b0] using rev_ind; [now left|]. right. rewrite app_assoc in H. apply app_inj_tail in H as [H ->]. eauto.
Qed.
Lemma worst_unique l n m : worst l n -> worst l m -> n = m.
Proof. intros [(a & b & E & X) H] [(c & d & F & Y) K]. specialize (H c d F). specialize (K a b E). lia. Qed.
Lemma worst_nonneg l n : worst l n -> 0 <= n.
Proof. intros [_ H]. specialize (H l []). rewrite app_nil_r in H. specialize (H eq_refl). cbn in H. lia. Qed.
Lemma worst_fine l n : worst l n -> worst (l ++ [Fine]) (if n =? 0 then 0 else n - 1).
Proof.
  intros W. pose proof (worst_nonneg l n W) as P. destruct W as [(a & b & E & X) H]. destruct (Z.eqb_spec n 0) as [->|N]; split.
  - exists (l ++ [Fine]), []. rewrite app_nil_r. auto.
  - intros c d F. apply snoc_split in F as [->|(d' & -> & F)]; [cbn; lia|]. rewrite excess_app. specialize (H c d' F). cbn. lia.
  - exists a, (b ++ [Fine]). split; [now rewrite app_assoc, <- E|]. rewrite excess_app. cbn. lia.
  - intros c d F. apply snoc_split in F as [->|(d' & -> & F)]; [cbn; lia|]. rewrite excess_app. specialize (H c d' F). cbn. lia.
Qed.
Lemma worst_fails l n x y : worst l n -> worst (l ++ [Fails x y]) (n + 1).
Proof.
  intros W. pose proof (worst_nonneg l n W) as P. destruct W as [(a & b & E & X) H]. split.
  - exists a, (b ++ [Fails x y]). split; [now rewrite app_assoc, <- E|]. rewrite excess_app. cbn. lia.
  - intros c d F. apply snoc_split in F as [->|(d' & -> & F)]; [cbn; lia|]. rewrite excess_app. specialize (H c d' F). cbn. lia.
Qed.
Lemma turn_going acc n lg r m lg' : turn acc (Going n lg) r = Going m lg' -> m = match r with Fine => if n =? 0 then 0 else n - 1 | Fails _ _ => n + 1 end.
Proof.
  cbn. destruct r as [|x y]; [congruence|]. destruct (n + 1 <? 20), x; try congruence; destruct (n + 1 =? 20); try congruence; destruct (100 <? n + 1); try congruence. destruct (y || _); congruence.
Qed.
Lemma loop_snoc acc l r : loop_run acc (l ++ [r]) = turn acc (loop_run acc l) r.
Proof. unfold loop_run. now rewrite fold_left_app. Qed.
Lemma loop_count acc l : forall n lg, loop_run acc l = Going n lg -> worst l n.
Proof.
  induction l as [|r l IH] using rev_ind; intros n lg H.
  - injection H as <- _. split; [now exists [], []|]. intros a b E. symmetry in E. apply app_eq_nil in E as [-> ->]. cbn. lia.
  - rewrite loop_snoc in H. destruct (loop_run acc l) as [m lm|m|] eqn:E; try discriminate. specialize (IH _ _ eq_refl). apply turn_going in H. subst n. destruct r; auto using worst_fine, worst_fails.
Qed.
Lemma loop_gave_up acc l : forall n, loop_run acc l = GaveUp n -> exists l1 x y l2, l = l1 ++ Fails x y :: l2 /\ worst (l1 ++ [Fails x y]) n /\ 100 < n /\ (y = true \/ 1000 < n + acc).
Proof.
  induction l as [|r l IH] using rev_ind; intros n H; [discriminate|]. rewrite loop_snoc in H. destruct (loop_run acc l) as [m lm|m|] eqn:E; try discriminate.
  - pose proof (loop_count acc l m lm E) as W. cbn in H. destruct r as [|x y]; [discriminate|]. exists l, x, y, []. split; [reflexivity|].
    destruct (m + 1 <? 20); [destruct x; discriminate|]. destruct (m + 1 =? 20); [discriminate|]. destruct (Z.ltb_spec 100 (m + 1)); [|discriminate]. destruct x; [discriminate|].
    destruct (y || (1000 <? m + 1 + acc)) eqn:G; [|discriminate]. injection H as <-. split; [now apply worst_fails|]. split; [exact H0|]. apply orb_true_iff in G as [G|G]; auto. right. now apply Z.ltb_lt.
  - cbn in H. injection H as <-. destruct (IH m eq_refl) as (l1 & x & y & l2 & -> & W). exists l1, x, y, (l2 ++ [r]). split; [now rewrite <- app_assoc|exact W].
Qed.
Lemma loop_no_crash acc l : Forall has_args l -> loop_run acc l <> Crashed.
Proof.
  induction l as [|r l IH] using rev_ind; intros H; [discriminate|]. apply Forall_app in H as [H1 H2]. inversion H2 as [|? ? H3 _]; subst. rewrite loop_snoc. specialize (IH H1).
  destruct (loop_run acc l) as [m lm|m|]; cbn; try congruence. destruct r as [|x y]; [discriminate|]. cbn in H3. subst x.
  destruct (m + 1 <? 20); [discriminate|]. destruct (m + 1 =? 20); [discriminate|]. destruct (100 <? m + 1); [|discriminate]. destruct (y || _); discriminate.
Qed.
