(** C84, C85: the execution of commands. *)
From Coq Require Import ZArith List Bool Lia ZifyBool ZifyNat.
From Verif Require Import Base Exec_Model Exec_Spec Exec_Proofs Exec_Proofs2 Exec_Proofs3.
Import ListNotations.
Local Open Scope Z_scope.

(** ** The small programs are processes *)
Lemma program_process k want left cap : 0 <= cap -> process (program k want left) cap.
Proof.
  intros Hc. constructor; cbn [program b_tick b_code b_group b_out b_err b_term b_kill].
  - intros ro re s s' o e Ho He. unfold p_tick. destruct (s_code s); [intros E; injection E as <- <- <-; lia|].
    destruct (0 <? s_want s) eqn:W; [intros E; injection E as <- <- <-; lia|].
    destruct (s_left s =? 1); intros E; injection E as <- <- <-; lia.
  - intros ro re s s' o e. unfold p_tick. destruct (s_code s); [auto|]. destruct (0 <? s_want s) eqn:W; [|auto].
    intros E Ho He. injection E as <- <- <-. replace (Z.min ro (s_want s)) with (Z.min cap (s_want s)) by lia. reflexivity.
  - intros ro re s c E. unfold p_tick. rewrite E. exact E.
  - intros s c E. destruct (g_trap k); cbn [hit p_end s_code]; rewrite ?E; reflexivity.
  - intros s c E. cbn [hit p_end s_code]. rewrite E. reflexivity.
  - intros s E. unfold running. rewrite E. reflexivity.
  - intros ro re s E. apply orb_false_iff in E. destruct E as (E1 & E2). unfold running in E1. destruct (s_code s) eqn:C; [|discriminate E1].
    unfold p_tick. rewrite C. cbn [fst]. unfold running. rewrite C. exact E2.
  - intros ro re s E. unfold holds, running in E. apply orb_false_iff in E. destruct E as (E1 & E2). destruct (s_code s) eqn:C; [|discriminate E1].
    unfold p_tick. rewrite C. cbn [fst snd]. unfold holds, running. rewrite C. split; [exact E2|reflexivity].
  - intros ro re s E. unfold holds, running in E. apply orb_false_iff in E. destruct E as (E1 & E2). destruct (s_code s) eqn:C; [|discriminate E1].
    unfold p_tick. rewrite C. cbn [fst snd]. unfold holds, running. rewrite C. split; [exact E2|reflexivity].
Qed.
Lemma program_mortal k want left : mortal (program k want left).
Proof.
  intros s. cbn [program b_kill b_group b_code]. unfold hit, p_end, running. cbn [s_code s_daemon]. split.
  - destruct (s_code s), (g_daemon k) as [[|]|]; reflexivity.
  - intros ->. reflexivity.
Qed.
Lemma program_contained k want left : g_daemon k <> Some true -> contained (program k want left).
Proof.
  intros H s. cbn [program b_group b_out b_err]. unfold holds. destruct (running s); [discriminate|]. cbn [orb].
  destruct (g_daemon k) as [[|]|]; [congruence| |]; auto.
Qed.
Lemma program_closes k want left : g_daemon k = None -> closes (program k want left).
Proof.
  intros H s c. cbn [program b_code b_out b_err]. unfold holds, running. intros ->. rewrite H. auto.
Qed.
Definition pipe : Z := 65536.
Lemma pipe_pos : 0 <= pipe.
Proof. unfold pipe. lia. Qed.

(** ** C84 *)

(** A command that ends by itself within the timeout gets no signal; its success is exactly that its exit status is one of
    those that mean success. *)
Theorem C84_status {S} (b : behaviour S) cap fuel level timeout output kill_tree codes (d : nat) c :
  process b cap -> b_code b (fst (unread b cap d)) = Some c -> Z.of_nat d <= timeout ->
  match execute_cmd b cap fuel true level timeout output kill_tree codes with
  | Done r w => w_signals w = [] /\ exists o e, answer codes output (Some c) o e r
  | Blocked w => w_signals w = [] /\ 0 <= c /\ is_read level codes output c = true
  end.
Proof. intros Hp. apply ended_status. exact Hp. Qed.

(** Its end is noticed soon: [d] units after the start, n (n + 1) <= 2 d, which is 4.5 milliseconds after one second,
    and less than two seconds in any case. *)
Theorem C84_soon {S} (b : behaviour S) cap fuel level timeout output kill_tree codes (d : nat) c :
  process b cap -> b_code b (fst (unread b cap d)) = Some c -> Z.of_nat d <= timeout ->
  (forall n, (n < d)%nat -> b_code b (fst (unread b cap n)) = None) ->
  c < 0 \/ is_read level codes output c = false \/ (b_out b (fst (unread b cap d)) = false /\ b_err b (fst (unread b cap d)) = false) ->
  exists r w n, execute_cmd b cap fuel true level timeout output kill_tree codes = Done r w /\
    w_now w = Z.of_nat d + n /\ 0 <= n < 2 * second /\ n * (n + 1) <= 2 * Z.of_nat d /\ w_signals w = [] /\
    w_state w = fst (unread b cap (d + Z.to_nat n)) /\
    answer codes output (Some c) (fst (snd (unread b cap (d + Z.to_nat n)))) (snd (snd (unread b cap (d + Z.to_nat n)))) r.
Proof. intros Hp. apply ended_soon. exact Hp. Qed.

(** A command whose output fits into the pipes does not see that nobody reads: its status is that of the command with
    a reader, and all its output is returned, also what comes after its end until nobody ([f]) can write any more. *)
Theorem C84_output {S} (b : behaviour S) cap fuel level timeout output kill_tree codes (d : nat) c (f : nat) :
  process b cap -> 0 <= cap ->
  (forall n, fst (snd (alone b cap n)) <= cap /\ snd (snd (alone b cap n)) <= cap) ->
  b_code b (fst (alone b cap d)) = Some c -> Z.of_nat d <= timeout -> (forall n, (n < d)%nat -> b_code b (fst (alone b cap n)) = None) ->
  b_out b (fst (alone b cap f)) = false -> b_err b (fst (alone b cap f)) = false -> (f <= d + fuel)%nat ->
  0 <= c \/ (f <= d)%nat ->
  exists r w, execute_cmd b cap fuel true level timeout output kill_tree codes = Done r w /\ w_signals w = [] /\
    answer codes output (Some c) (fst (snd (alone b cap f))) (snd (snd (alone b cap f))) r /\
    w_now w < Z.max (Z.of_nat f + 1) (Z.of_nat d + 2 * second).
Proof. intros Hp Hc. apply ended_output; assumption. Qed.

Definition fine : behaviour prog := program (mkK 3 (Some (-15)) None) 100 500.
Lemma C84_demo :
  b_code fine (fst (unread fine pipe 501)) = Some 3 /\ b_code fine (fst (unread fine pipe 500)) = None /\ 
  snd (alone fine pipe 501) = (100, 0) /\ b_out fine (fst (alone fine pipe 501)) = false /\
  exists w, execute_cmd fine pipe 0 true 20 1000 true true [0] = Done (RAll false (Some 100) (Some 0) (Some 3)) w /\ w_now w = 528 /\
  execute_cmd fine pipe 0 true 20 1000 false true [0; 3] = Done (RTwo true (Some 3)) (mkW (w_state w) 528 100 0 []).
Proof.
  split; [vm_compute; reflexivity|]. split; [vm_compute; reflexivity|]. split; [vm_compute; reflexivity|]. split; [vm_compute; reflexivity|].
  eexists. split; [vm_compute; reflexivity|]. split; vm_compute; reflexivity.
Qed.

(** The ignore command: its status 0 means ignored, everything else not. *)
Theorem C84_ignore {S} (b : behaviour S) cap fuel level (d : nat) c :
  process b cap -> b_code b (fst (unread b cap d)) = Some c -> Z.of_nat d <= 60 * second ->
  (ignore_cmd b cap fuel false true level = Hangs /\ 0 <= c) \/ ignore_cmd b cap fuel false true level = Ignored (c =? 0).
Proof.
  intros Hp E Hd. unfold ignore_cmd, action_cmd. 
  pose proof (ended_status b cap Hp fuel level 6000000 false true [0; 1] d c E Hd) as H.
  destruct (execute_cmd b cap fuel true level 6000000 false true [0; 1]) as [r w|w].
  - right. destruct H as (_ & o & e & A). destruct r as [a|a c'|a o' e' c']; cbn [answer] in A; cbv zeta in A.
    + destruct A as (_ & A & _). discriminate A.
    + destruct A as (_ & _ & A & ->). f_equal. destruct (Z.eqb_spec c 0) as [->|N]; [|apply andb_false_r].
      rewrite andb_true_r. apply A. exists 0. split; [reflexivity|now left].
    + destruct A as (A & _). discriminate A.
  - left. split; [reflexivity|apply H].
Qed.

(** FINDING: when the ignore command cannot be started (no memory, arguments too long) the single value that is returned
    cannot be unpacked: an error (TypeError) instead of 'not ignored'. *)
Theorem C84_start_refuted : ~ (forall S (b : behaviour S) cap fuel started level, ignore_cmd b cap fuel false started level <> Fails).
Proof. intros H. apply (H _ fine pipe 0%nat false 20). reflexivity. Qed.

(** FINDING: nobody reads the output while waiting.  A command that writes more than fits into a pipe, and would
    end at once if it was read, never ends: it is killed after the timeout, whatever that is, and counts as failed. *)
Definition chatty : behaviour prog := program (mkK 0 (Some (-15)) None) (pipe + 1) 1.
Lemma chatty_stuck n : unread chatty pipe (Datatypes.S n) = (mkP 1 1 None true, (pipe, 0)).
Proof.
  induction n as [|n IH]; [vm_compute; reflexivity|]. rewrite unread_S, IH. cbv zeta. cbn [fst snd]. vm_compute. reflexivity.
Qed.
Theorem C84_chatty_refuted :
  ~ (forall (b : behaviour prog) fuel level timeout (d : nat),
       process b pipe -> b_code b (fst (alone b pipe d)) = Some 0 -> Z.of_nat d <= timeout ->
       exists w, execute_cmd b pipe fuel true level timeout false true [0] = Done (ROne true) w) /\
  (forall fuel level timeout, 3 <= timeout -> exists w t,
     b_code chatty (fst (alone chatty pipe 3)) = Some 0 /\
     execute_cmd chatty pipe fuel true level timeout false true [0] = Done (ROne false) w /\ w_signals w = [(TERM, t)] /\ timeout < t).
Proof.
  assert (forall fuel level timeout, 3 <= timeout -> exists w t,
     b_code chatty (fst (alone chatty pipe 3)) = Some 0 /\
     execute_cmd chatty pipe fuel true level timeout false true [0] = Done (ROne false) w /\ w_signals w = [(TERM, t)] /\ timeout < t) as H.
  { intros fuel level timeout Ht.
    destruct (obeys chatty pipe (program_process _ _ _ _ pipe_pos) fuel level timeout false [0] (-15)) as (t & r & w & E & It & Sg & _ & o & e & A).
    - apply program_mortal.
    - intros s E. cbn [chatty program b_term b_group b_code g_trap g_daemon]. unfold hit, p_end, running. cbn [s_code s_daemon g_daemon].
      cbn [chatty program b_code] in E. rewrite E. split; reflexivity.
    - lia.
    - lia.
    - intros n _. destruct n as [|n]; [reflexivity|]. rewrite chatty_stuck. reflexivity.
    - exists w, t. split; [vm_compute; reflexivity|]. split.
      + rewrite E. destruct r as [a|a c'|a o' e' c']; cbn [answer] in A; cbv zeta in A.
        * destruct A as (_ & _ & A). destruct a; [|reflexivity]. destruct (proj1 A eq_refl) as (n & En & [<-|[]]). discriminate En.
        * destruct A as (_ & A & _). destruct A. reflexivity.
        * destruct A as (A & _). discriminate A.
      + split; [exact Sg|]. unfold in_time in It. cbv zeta in It. lia. }
  split; [|exact H]. intros F. destruct (H 0%nat 20 3 ltac:(lia)) as (w & t & E & R & _).
  destruct (F chatty 0%nat 20 3 3%nat (program_process _ _ _ _ pipe_pos) E ltac:(lia)) as (w' & R'). congruence.
Qed.

(** ** C85 *)

(** No signal is sent before the timeout, and none to a command that has ended by then. *)
Theorem C85_signals {S} (b : behaviour S) cap fuel started level timeout output kill_tree codes g t :
  process b cap ->
  match execute_cmd b cap fuel started level timeout output kill_tree codes with Done _ w => In (g, t) (w_signals w) | Blocked w => In (g, t) (w_signals w) end ->
  timeout < t /\ forall n : nat, Z.of_nat n <= timeout -> b_code b (fst (unread b cap n)) = None.
Proof.
  intros Hp H. apply (signals_late b cap Hp fuel started level timeout output kill_tree codes g t).
  destruct (execute_cmd b cap fuel started level timeout output kill_tree codes); exact H.
Qed.

(** A command that takes too long gets SIGTERM at [t], soon after the timeout, and SIGKILL 0.2 seconds later unless
    everybody in its group has gone; then nobody of the group is left; what is returned is its own exit status. *)
Theorem C85_stopped {S} (b : behaviour S) cap fuel level timeout output codes :
  process b cap -> mortal b -> 0 <= timeout ->
  (forall n : nat, Z.of_nat n <= timeout + 2 * second -> b_code b (fst (unread b cap n)) = None) ->
  exists t w, match execute_cmd b cap fuel true level timeout output true codes with Done _ w => w | Blocked w => w end = w /\
    (let g := t - timeout in 0 < g <= 2 * second /\ g * (g - 1) <= 2 * timeout) /\
    (w_signals w = [(TERM, t)] \/ w_signals w = [(TERM, t); (KILL, t + 20000)]) /\ b_group b (w_state w) = false /\
    exists c, b_code b (w_state w) = Some c /\
      match execute_cmd b cap fuel true level timeout output true codes with
      | Done r _ => exists o e, answer codes output (Some c) o e r
      | Blocked _ => 0 <= c
      end.
Proof. intros Hp. apply stopped. exact Hp. Qed.

(** One that ignores SIGTERM is killed. *)
Theorem C85_ignores {S} (b : behaviour S) cap fuel level timeout output codes :
  process b cap -> mortal b -> (forall s, b_term b s = s) -> 0 <= timeout -> (forall n : nat, b_code b (fst (unread b cap n)) = None) ->
  exists t r w, execute_cmd b cap fuel true level timeout output true codes = Done r w /\
    (let g := t - timeout in 0 < g <= 2 * second /\ g * (g - 1) <= 2 * timeout) /\
    w_signals w = [(TERM, t); (KILL, t + 20000)] /\ w_now w = t + 40000 /\ exists o e, answer codes output (Some (-9)) o e r.
Proof. intros Hp. apply ignores. exact Hp. Qed.

(** One that is ended by SIGTERM is not killed. *)
Theorem C85_obeys {S} (b : behaviour S) cap fuel level timeout output codes k :
  process b cap -> mortal b -> (forall s, b_code b s = None -> b_group b (b_term b s) = false /\ b_code b (b_term b s) = Some k) -> k < 0 ->
  0 <= timeout -> (forall n : nat, Z.of_nat n <= timeout + 2 * second -> b_code b (fst (unread b cap n)) = None) ->
  exists t r w, execute_cmd b cap fuel true level timeout output true codes = Done r w /\
    (let g := t - timeout in 0 < g <= 2 * second /\ g * (g - 1) <= 2 * timeout) /\
    w_signals w = [(TERM, t)] /\ w_now w = t + 20000 /\ exists o e, answer codes output (Some k) o e r.
Proof. intros Hp. apply obeys. exact Hp. Qed.

(** When only the group holds the pipes the execution is over 0.4 seconds after SIGTERM, at the latest. *)
Theorem C85_bound {S} (b : behaviour S) cap fuel level timeout output codes :
  process b cap -> mortal b -> contained b -> 0 <= timeout ->
  (forall n : nat, Z.of_nat n <= timeout + 2 * second -> b_code b (fst (unread b cap n)) = None) ->
  exists t r w, execute_cmd b cap fuel true level timeout output true codes = Done r w /\
    (let g := t - timeout in 0 < g <= 2 * second /\ g * (g - 1) <= 2 * timeout) /\ t + 20000 <= w_now w <= t + 40000.
Proof. intros Hp. apply bounded. exact Hp. Qed.

(** Commands wait for each other, for all jails: when they leave nobody behind who holds their pipes each is over after
    its timeout and 2.4 seconds. *)
Theorem C85_queue {S} cap fuel level (cs : list (behaviour S * Z)) :
  0 <= cap -> Forall (fun c => process (fst c) cap /\ mortal (fst c) /\ closes (fst c) /\ 0 <= snd c) cs ->
  forall now, Forall2 (fun rt d => snd rt <= d) (queue cap fuel level now cs) (deadlines now (map snd cs)).
Proof. apply queue_done. Qed.

(** Never ends; ignores SIGTERM; with another process in its group. *)
Definition endless : behaviour prog := program (mkK 0 None (Some false)) 0 0.
Lemma endless_runs n : fst (unread endless pipe n) = mkP 0 (- Z.of_nat n) None true.
Proof.
  assert (forall n, unread endless pipe n = (mkP 0 (- Z.of_nat n) None true, (0, 0))) as H.
  { clear n. induction n as [|n IH]; [reflexivity|]. rewrite unread_S, IH. cbv zeta. cbn [fst snd endless program b_tick]. unfold p_tick. cbn [s_code s_want s_left s_daemon].
    cbn [Z.ltb Z.compare]. destruct (Z.eqb_spec (- Z.of_nat n) 1); [lia|]. replace (- Z.of_nat n - 1) with (- Z.of_nat (Datatypes.S n)) by lia. reflexivity. }
  now rewrite H.
Qed.
Definition obedient : behaviour prog := program (mkK 0 (Some (-15)) None) 0 0.
Definition stubborn : behaviour prog := program (mkK 0 None (Some true)) 0 0.
Lemma C85_demo :
  (forall s, b_term stubborn s = s) /\
  (forall s, b_code obedient s = None -> b_group obedient (b_term obedient s) = false /\ b_code obedient (b_term obedient s) = Some (-15)) /\
  process endless pipe /\ mortal endless /\ contained endless /\ (forall n, b_code endless (fst (unread endless pipe n)) = None) /\
  process fine pipe /\ mortal fine /\ closes fine /\
  (exists w, execute_cmd endless pipe 0 true 20 100 true true [0] = Done (RAll false (Some 0) (Some 0) (Some (-9))) w /\
             w_signals w = [(TERM, 105); (KILL, 20105)] /\ w_now w = 40105) /\
  (exists w, execute_cmd obedient pipe 0 true 20 100 false true [0] = Done (ROne false) w /\ w_signals w = [(TERM, 105)] /\ w_now w = 20105) /\
  queue pipe 0 20 0 [(fine, 1000); (endless, 100); (fine, 1000)] = [(ROne false, 528); (ROne false, 40633); (ROne false, 41161)].
Proof.
  split; [intros [w l c d]; reflexivity|].
  split; [intros [w l c d] E; cbn in E; subst c; split; reflexivity|].
  split; [apply program_process, pipe_pos|]. split; [apply program_mortal|]. split; [apply program_contained; discriminate|].
  split; [intros n; rewrite endless_runs; reflexivity|].
  split; [apply program_process, pipe_pos|]. split; [apply program_mortal|]. split; [apply program_closes; reflexivity|].
  split; [eexists; split; [vm_compute; reflexivity|]; split; vm_compute; reflexivity|].
  split; [eexists; split; [vm_compute; reflexivity|]; split; vm_compute; reflexivity|].
  vm_compute. reflexivity.
Qed.

(** FINDING: a command that takes too long, and that ends with status 0 when it gets SIGTERM, counts as succeeded:
    that it was stopped is only logged. *)
Theorem C85_success_refuted : 
  ~ (forall (b : behaviour prog) fuel level timeout r w, process b pipe ->
       execute_cmd b pipe fuel true level timeout false true [0] = Done r w -> w_signals w <> [] -> r = ROne false).
Proof.
  intros H. set (b := program (mkK 0 (Some 0) None) 0 0).
  assert (exists w, execute_cmd b pipe 0 true 20 100 false true [0] = Done (ROne true) w /\ w_signals w = [(TERM, 105)]) as (w & E & Sg)
    by (eexists; split; vm_compute; reflexivity).
  specialize (H b 0%nat 20 100 _ w (program_process _ _ _ _ pipe_pos) E). rewrite Sg in H. specialize (H ltac:(discriminate)). discriminate H.
Qed.

(** FINDING: the timeout does not limit the reading.  A command that fails at once (status 1) and has left a process
    behind that holds its output is read from as long as that process lives, here forever; and all other commands
    of all jails wait for it. *)
Definition starter : behaviour prog := program (mkK 1 (Some (-15)) (Some true)) 0 1.
Lemma starter_holds fuel : forall n (w : world prog), s_daemon (w_state w) = true -> fst (read_out starter pipe fuel n w) = None.
Proof.
  induction fuel as [|fuel IH]; intros n w H; cbn [read_out]; (assert (b_out starter (w_state w) = true) as ->
    by (cbn [starter program b_out]; unfold holds; cbn [g_daemon]; rewrite H; apply orb_true_r)); [reflexivity|].
  apply IH. unfold tick_out. cbn [starter program b_tick]. unfold p_tick.
  destruct (s_code (w_state w)); [exact H|]. destruct (0 <? s_want (w_state w)); [exact H|]. destruct (s_left (w_state w) =? 1); exact H.
Qed.
Theorem C85_lock_refuted :
  ~ (forall cap fuel level (cs : list (behaviour prog * Z)), 0 <= cap ->
       Forall (fun c => process (fst c) cap /\ mortal (fst c) /\ exists d : nat, Z.of_nat d <= snd c /\ b_code (fst c) (fst (unread (fst c) cap d)) <> None) cs ->
       length (queue cap fuel level 0 cs) = length cs) /\
  b_code starter (fst (unread starter pipe 1)) = Some 1 /\
  (forall fuel now cs, queue pipe fuel 20 now ((starter, 1000) :: cs) = []).
Proof.
  assert (forall fuel now cs, queue pipe fuel 20 now ((starter, 1000) :: cs) = []) as Q.
  { intros fuel now cs. cbn [queue]. unfold action_cmd, execute_cmd. cbn [negb].
    assert (exists w, wait starter pipe 1000 (start_world starter) = (Some 1, w) /\ s_daemon (w_state w) = true) as (w & -> & Hw)
      by (eexists; split; vm_compute; reflexivity).
    unfold collect. cbn [existsb Z.eqb orb Z.leb Z.compare Z.ltb].
    replace (20 <=? ERROR) with true by reflexivity.
    pose proof (starter_holds fuel 0 w Hw) as R. destruct (read_out starter pipe fuel 0 w) as ([o|], w'); [discriminate R|reflexivity]. }
  split; [|split; [vm_compute; reflexivity|exact Q]]. intros H. specialize (H pipe 0%nat 20 [(starter, 1000)] pipe_pos).
  rewrite Q in H. assert (0 = 1)%nat as X; [|discriminate X]. apply H. constructor; [|constructor]. cbn [fst snd].
  split; [apply program_process, pipe_pos|]. split; [apply program_mortal|]. exists 1%nat. split; [lia|]. vm_compute. discriminate.
Qed.

Print Assumptions C84_status.
Print Assumptions C84_soon.
Print Assumptions C84_output.
Print Assumptions C84_demo.
Print Assumptions C84_ignore.
Print Assumptions C84_start_refuted.
Print Assumptions C84_chatty_refuted.
Print Assumptions C85_signals.
Print Assumptions C85_stopped.
Print Assumptions C85_ignores.
Print Assumptions C85_obeys.
Print Assumptions C85_bound.
Print Assumptions C85_queue.
Print Assumptions C85_demo.
Print Assumptions C85_success_refuted.
Print Assumptions C85_lock_refuted.
