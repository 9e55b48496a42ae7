(** * C107, C108 and C109: server processes, their files, and the loop that serves clients *)
From Verif Require Import Base Life_Model Life_Spec Life_Proofs Life_Proofs2.

(** ** C107: a stop stops everything, in order, and the process ends *)

(** A serving process that is told to stop, by a signal or by a command, stops to answer, then its jails, then closes the database, then removes the file of the
    socket, in that order; the PID file and all other processes are untouched by it. *)
Theorem C107_stop : forall l i p x, let w := run init l in
  proc_at w i p -> pc p = PLoop -> quitted p = false -> x = Sig i None \/ x = CmdStop i None ->
  exists p', proc_at (step w x) i p' /\ shut p' /\
    log p' = log p ++ [LComm; LObs; LJails; LForce] ++ (if db p then [LDb] else []) ++ [LSock] /\
    sockfile (step w x) = None /\ pidfile (step w x) = pidfile w /\
    (forall j q, j <> i -> proc_at w j q <-> proc_at (step w x) j q).
Proof.
  intros l i p x w H P Q X. assert (C : concerns i x) by (destruct X as [-> | ->]; reflexivity).
  destruct (winv_run l init (winv_empty _ _) i p H) as (_ & I2 & _ & D & E & _). destruct (D Q) as (D1 & D2 & D3); [now rewrite P|now rewrite P|]. destruct (E Q (or_intror P)) as (E1 & E2 & E3).
  assert (I0 : isinit p = true) by auto.
  pose proof (quit_full p (sockfile w) Q D2 D3) as F. rewrite I0, E1 in F.
  assert (L : local x i p w = (fst (fst (quit None p (sockfile w))), pidfile w, None)).
  { destruct X as [-> | ->]; cbn [local]; unfold signal, command_stop; rewrite P; cbn [ended]; rewrite ?D1, ?E2, ?E3, F; reflexivity. }
  eexists. split; [exact (own_step w x i p C H)|]. rewrite L, F. cbn [fst snd]. split; [|split; [|split; [|split]]].
  - unfold shut. cbn. rewrite P. auto 20.
  - reflexivity.
  - rewrite (step_local x i p w C H), L. reflexivity.
  - rewrite (step_local x i p w C H), L. reflexivity.
  - intros j q N. rewrite (step_local x i p w C H). unfold proc_at. cbn [procs]. rewrite (nth_upd_other i j _ p (procs w) H) by congruence. tauto.
Qed.
(** Then nothing starts again, whatever is done to this and to other processes, *)
Theorem C107_stays : forall w l i p, proc_at w i p -> shut p -> exists p', proc_at (run w l) i p' /\ shut p'.
Proof. intros w l i p. apply shut_run. Qed.
(** and after four more steps of its main thread the process has ended, however they are interleaved with others. *)
Theorem C107_exits : forall w l i p, proc_at w i p -> shut p -> pc p <> Killed -> undisturbed i l -> (4 <= own_steps i l)%nat ->
  exists p', proc_at (run w l) i p' /\ pc p' = Exited.
Proof.
  intros w l i p H S0 N U L. destruct (exits_run i l w p H S0 N U) as (p' & A & (_ & _ & _ & _ & _ & _ & B) & K & R). exists p'. split; auto.
  assert (X : (rank (pc p) <= 4)%nat) by (destruct (pc p); cbn; lia). destruct B as [B|[B|[B|[B|[B|[B|[]]]]]]]; rewrite <- B in *; cbn [rank] in R; try lia; congruence.
Qed.
Definition pr (i : nat) (w : world) : proc := nth i (procs w) (new_proc false).
Definition gos (i n : nat) : list label := repeat (Go i fine) n.
Definition C107_demo_l : list label := [Start false] ++ gos 0 8 ++ [Cfg 0].
Example C107_demo : exists p, proc_at (run init C107_demo_l) 0 p /\ serving p /\ quitted p = false /\ jails p = true /\ db p = true /\
  log (nth 0 (procs (run init (C107_demo_l ++ [Sig 0 None]))) p) = [LComm; LObs; LJails; LForce; LDb; LSock] /\
  map pc (procs (run init (C107_demo_l ++ [Sig 0 None; Start true] ++ gos 0 2 ++ gos 1 1 ++ gos 0 2))) = [Exited; PPid].
Proof. exists (pr 0 (run init C107_demo_l)). vm_compute. auto 20. Qed.

(** A signal that comes while the server is starting is lost: everything is stopped that is not there yet, the start goes on, and from then on the command stop does
    nothing and the next signal ends the process without any cleaning. *)
Definition C107_early_l : list label := [Start false] ++ gos 0 1 ++ [Sig 0 None] ++ gos 0 7 ++ [Cfg 0].
Theorem C107_early_refuted : exists l, found (run init l) 0 /\ (exists p, proc_at (run init l) 0 p /\ jails p = true) /\
  (forall qr, run init (l ++ [CmdStop 0 qr]) = run init l) /\
  (forall qr, map pc (procs (run init (l ++ [Sig 0 qr]))) = [Killed] /\ sockfile (run init (l ++ [Sig 0 qr])) = Some 0%nat).
Proof.
  exists C107_early_l. split; [|split; [|split]].
  - split; [reflexivity|]. exists (pr 0 (run init C107_early_l)). vm_compute. auto.
  - exists (pr 0 (run init C107_early_l)). vm_compute. auto.
  - intros qr. vm_compute. reflexivity.
  - intros qr. vm_compute. auto.
Qed.
(** A little later, it leaves a server that answers every command with SHUTDOWN, and goes on with that. *)
Definition C107_mute_l : list label := [Start false] ++ gos 0 4 ++ [Sig 0 None] ++ gos 0 4.
Theorem C107_mute_refuted : exists l p, proc_at (run init l) 0 p /\ sockfile (run init l) = Some 0%nat /\ pc p = PLoop /\ isloop p = true /\ comm p = false /\
  forall x, (x = Go 0 fine \/ x = Cfg 0 \/ exists qr, x = CmdStop 0 qr) -> run init (l ++ [x]) = run init l.
Proof.
  exists C107_mute_l, (pr 0 (run init C107_mute_l)). do 5 (split; [vm_compute; reflexivity|]).
  intros x [->|[->|[qr ->]]]; vm_compute; reflexivity.
Qed.
(** The same is left by a stop in which something raises: here the closing of the database. *)
Definition C107_raise_l : list label := C107_demo_l ++ [CmdStop 0 (Some 5%nat)].
Theorem C107_raise_refuted : exists l p, proc_at (run init l) 0 p /\ pc p = PLoop /\ isloop p = true /\ comm p = false /\ jails p = false /\ db p = true /\
  forall x, (x = Go 0 fine \/ x = Cfg 0 \/ exists qr, x = CmdStop 0 qr) -> run init (l ++ [x]) = run init l.
Proof.
  exists C107_raise_l, (pr 0 (run init C107_raise_l)). do 6 (split; [vm_compute; reflexivity|]).
  intros x [->|[->|[qr ->]]]; vm_compute; reflexivity.
Qed.

(** ** C108: who may touch the file of the socket, and the PID file *)

(** The file of a socket is replaced or removed only by a process that was started with force, or that had made one itself *)
Theorem C108_who : forall l x k, let w := run init l in sockfile w = Some k -> sockfile (step w x) <> Some k ->
  exists i p, concerns i x /\ proc_at w i p /\ ((force p = true /\ pc p = PRemove) \/ exists l1 l2, l = l1 ++ l2 /\ sockfile (run init l1) = Some i).
Proof.
  intros l x k w S0 N. destruct (files_step w x) as [[E _]|(i & p & H & C & E & _)]; [congruence|]. exists i, p. split; [exact C|]. split; [exact H|]. rewrite E in N.
  destruct (removed x i p w k (winv_run l init (winv_empty _ _) i p H) C S0 N) as [R|R]; auto. right. eapply bound_before; [exact H|]. now left.
Qed.
(** Servers that are started without force leave a serving one alone, in any number and order, also if some are killed *)
Theorem C108_serving : forall l l' k, Forall quiet l -> Forall quiet l' -> sockfile (run init l) = Some k -> sockfile (run init (l ++ l')) = Some k.
Proof.
  intros l l' k Q Q' S0. rewrite run_app. destruct (quiet_run l init Q) as [W _]; [intros i p H; unfold proc_at in H; destruct i; discriminate|]. now apply (quiet_run l' _ Q' W).
Qed.
(** and only one of them serves *)
Theorem C108_one : forall l i j p q, Forall quiet l -> proc_at (run init l) i p -> proc_at (run init l) j q -> serving p -> serving q -> i = j.
Proof.
  intros l i j p q Q Hi Hj [P _] [P' _]. destruct (quiet_run l init Q) as [W _]; [intros i0 p0 H; unfold proc_at in H; destruct i0; discriminate|].
  destruct (W i p Hi) as (_ & _ & _ & _ & B & _). destruct (W j q Hj) as (_ & _ & _ & _ & B' & _). rewrite (B (or_intror (or_intror P))) in B'. specialize (B' (or_intror (or_intror P'))). congruence.
Qed.
(** A server that has the two paths for itself leaves nothing when it has ended, whatever signals and errors it got; without force it leaves the file that it found. *)
Theorem C108_alone : forall pid0 k0 f l p, Forall no_start l -> let w := run (mkWd pid0 k0 []) (Start f :: l) in
  proc_at w 0 p -> pc p = Exited -> pidfile w = None /\ sockfile w = (if f then None else k0).
Proof.
  intros pid0 k0 f l p N w H P. unfold w in *. cbn [run fold_left] in *. set (w1 := step (mkWd pid0 k0 []) (Start f)) in *. change (fold_left step l w1) with (run w1 l) in *.
  destruct (alone_run k0 f l w1 (new_proc f) N eq_refl) as (p' & E & (_ & _ & A)).
  - split; [apply pinv_new|]. split; reflexivity.
  - unfold proc_at in H. rewrite E in H. cbn in H. injection H as ->. rewrite P in A. destruct A as [A ->]. split; [reflexivity|].
    destruct A as [[[-> | ->] ->]|(-> & _ & -> & _)]; try reflexivity. now destruct f.
Qed.
Example C108_demo : let l := [Start false; Start false] ++ gos 0 8 ++ gos 1 7 ++ [Kill 1] in
  Forall quiet l /\ found (run init l) 0 /\ map pc (procs (run init l)) = [PLoop; Exited].
Proof. cbv zeta. split; [repeat constructor|]. split; [|vm_compute; reflexivity]. split; [vm_compute; reflexivity|]. match goal with |- exists p, proc_at ?w ?i p /\ _ => exists (pr i w) end. vm_compute. auto. Qed.
Example C108_alone_demo : let w := run (mkWd (Some 5%nat) (Some 6%nat) []) (Start true :: gos 0 9 ++ [Sig 0 None] ++ gos 0 4) in
  map pc (procs w) = [Exited] /\ pidfile w = None /\ sockfile w = None /\
  sockfile (run (mkWd None (Some 6%nat) []) (Start false :: gos 0 9)) = Some 6%nat.
Proof. vm_compute. auto. Qed.

(** The PID file is not protected like that: a second server that is started without force, and that leaves the first one alone, overwrites its PID file and removes it at its end. *)
Theorem C108_pid_refuted : exists l, Forall quiet l /\ found (run init l) 0 /\ pidfile (run init l) = Some 0%nat /\
  exists l', Forall quiet l' /\ found (run init (l ++ l')) 0 /\ pidfile (run init (l ++ l')) = None.
Proof.
  exists ([Start false] ++ gos 0 8). split; [repeat constructor|]. split; [split; [vm_compute; reflexivity|]; match goal with |- exists p, proc_at ?w ?i p /\ _ => exists (pr i w) end; vm_compute; auto|]. split; [vm_compute; reflexivity|].
  exists ([Start false] ++ gos 1 7). split; [repeat constructor|]. split; [|vm_compute; reflexivity]. split; [vm_compute; reflexivity|]. match goal with |- exists p, proc_at ?w ?i p /\ _ => exists (pr i w) end. vm_compute. auto.
Qed.
(** A server that is started while the old one is ending loses the file of its socket: the old one removes it a second time when its loop has ended. Nobody used force; the new server serves, and no
    client finds it. *)
Theorem C108_restart_refuted : exists l i p, (forall f, In (Start f) l -> f = false) /\ proc_at (run init l) i p /\ serving p /\ sockfile (run init l) = None.
Proof.
  exists ([Start false] ++ gos 0 8 ++ [CmdStop 0 None; Start false] ++ gos 1 8 ++ gos 0 2), 1%nat.
  exists (pr 1 (run init ([Start false] ++ gos 0 8 ++ [CmdStop 0 None; Start false] ++ gos 1 8 ++ gos 0 2))). split; [|vm_compute; auto].
  intros f H. cbn in H. repeat (destruct H as [H|H]; [congruence|]). contradiction.
Qed.
(** A server that was started with force loses it when the one it replaced ends. *)
Theorem C108_forced_refuted : exists l, found (run init l) 1 /\ exists p, let w := run init (l ++ [CmdStop 0 None]) in proc_at w 1 p /\ serving p /\ sockfile w = None.
Proof.
  exists ([Start false] ++ gos 0 8 ++ [Start true] ++ gos 1 9). split.
  - split; [vm_compute; reflexivity|]. match goal with |- exists p, proc_at ?w ?i p /\ _ => exists (pr i w) end. vm_compute. auto.
  - exists (pr 1 (run init (([Start false] ++ gos 0 8 ++ [Start true] ++ gos 1 9) ++ [CmdStop 0 None]))). vm_compute. auto.
Qed.

(** ** C109: errors do not end the loop that serves clients, unless there are too many *)

(** Its counter is the worst excess of failures over successes of any stretch up to now *)
Theorem C109_counter : forall accept l n lg, loop_run accept l = Going n lg -> worst l n.
Proof. intros. eapply loop_count; eauto. Qed.
(** It gives up only in a stretch with more than a hundred failures more than successes, on the error that says there are too many open files, or with more than a thousand counted in all; *)
Theorem C109_gives_up : forall accept l n, loop_run accept l = GaveUp n ->
  exists l1 x emfile l2, l = l1 ++ Fails x emfile :: l2 /\ worst (l1 ++ [Fails x emfile]) n /\ 100 < n /\ (emfile = true \/ 1000 < n + accept).
Proof. intros accept l n. apply loop_gave_up. Qed.
(** so it goes on for ever if no stretch is that bad. *)
Theorem C109_goes_on : forall accept l, Forall has_args l -> (forall a b c, l = a ++ b ++ c -> excess b <= 100) -> exists n lg, loop_run accept l = Going n lg.
Proof.
  intros accept l A H. destruct (loop_run accept l) as [n lg|n|] eqn:E; [eauto| |].
  - apply loop_gave_up in E as (l1 & x & y & l2 & -> & [(a & b & E1 & X) _] & G & _). exfalso. specialize (H a b l2). rewrite app_assoc, <- E1, <- app_assoc in H. specialize (H eq_refl). lia.
  - now destruct (loop_no_crash accept l A).
Qed.
(** Nothing is logged for a failure that makes the counter more than twenty *)
Theorem C109_log : forall accept n lg r n' lg', turn accept (Going n lg) r = Going n' lg' -> lg' = lg \/ (lg' = S lg /\ n' <= 20).
Proof.
  intros accept n lg r n' lg' H. cbn in H. destruct r as [|x y]; [injection H; auto|]. destruct (Z.ltb_spec (n + 1) 20).
  - destruct x; [discriminate|]. injection H as <- <-. right. split; auto. lia.
  - destruct (Z.eqb_spec (n + 1) 20); [injection H as <- <-; right; split; auto; lia|]. destruct (100 <? n + 1); [destruct x; [discriminate|]; destruct (y || _); [discriminate|]|]; injection H; auto.
Qed.
Example C109_demo : loop_run 0 (repeat (Fails false true) 100 ++ [Fine; Fails false true; Fine; Fine]) = Going 98 20 /\
  loop_run 0 (repeat (Fails false true) 100 ++ [Fine; Fails false true; Fails false true]) = GaveUp 101 /\
  loop_run 3 (repeat (Fails false false) 998) = GaveUp 998 /\ Forall has_args (repeat (Fails false false) 50).
Proof. vm_compute. repeat split; repeat constructor. Qed.
(** An exception without arguments ends it at once: looking for its number raises within the handling. *)
Theorem C109_crash_refuted : exists r, forall accept, loop_run accept [r] = Crashed.
Proof. exists (Fails true false). reflexivity. Qed.

Print Assumptions C107_stop.
Print Assumptions C107_stays.
Print Assumptions C107_exits.
Print Assumptions C107_early_refuted.
Print Assumptions C107_mute_refuted.
Print Assumptions C107_raise_refuted.
Print Assumptions C108_who.
Print Assumptions C108_serving.
Print Assumptions C108_one.
Print Assumptions C108_alone.
Print Assumptions C108_pid_refuted.
Print Assumptions C108_restart_refuted.
Print Assumptions C108_forced_refuted.
Print Assumptions C109_counter.
Print Assumptions C109_gives_up.
Print Assumptions C109_goes_on.
Print Assumptions C109_log.
Print Assumptions C109_crash_refuted.
