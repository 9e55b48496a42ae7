From Coq Require Import ZArith List Bool Lia ZifyBool ZifyNat.
From Verif Require Import Base Exec_Model Exec_Spec Exec_Proofs Exec_Proofs2.
Import ListNotations.
Local Open Scope Z_scope.

Local Opaque sleep SLEEP_INTERVAL.
Lemma interval : SLEEP_INTERVAL = 20000.
Proof. reflexivity. Qed.
Ltac slp := rewrite interval in *; lia.
Section P.
Context {S : Type} (b : behaviour S) (cap : Z) (Hp : process b cap) (Hcap : 0 <= cap).

Lemma killpg_eq g (w : world S) : b_group b (w_state w) = true ->
  killpg b g w = Some (mkW (match g with TERM => b_term b | KILL => b_kill b end (w_state w)) (w_now w) (w_out w) (w_err w) (w_signals w ++ [(g, w_now w)])).
Proof. intros H. unfold killpg. now rewrite H. Qed.

(** the state after SIGTERM and some time, 0.2 seconds *)
Definition termed_ (si : Z) (w : world S) : world S :=
  sleep b cap si (mkW (b_term b (w_state w)) (w_now w) (w_out w) (w_err w) (w_signals w ++ [(TERM, w_now w)])).
Definition termed (w : world S) : world S := termed_ SLEEP_INTERVAL w.

Lemma time_out_gen si w : 0 <= si -> mortal b -> b_code b (w_state w) = None ->
  exists c w', match killpg b TERM w with
  | None => (None, w)
  | Some w =>
      let w := sleep b cap si w in
      let code := poll b w in
      if match code with None => true | Some _ => true end then
        match killpg b KILL w with
        | None => (code, w)
        | Some w =>
            let w := sleep b cap si w in
            (match code with None => poll b w | Some c => Some c end, w)
        end
      else (code, w)
  end = (Some c, w') /\ b_code b (w_state w') = Some c /\ b_group b (w_state w') = false /\
    (b_code b (w_state (termed_ si w)) = None -> c = -9) /\ (forall k, b_code b (w_state (termed_ si w)) = Some k -> c = k) /\
    if b_group b (w_state (termed_ si w)) then
      w_signals w' = w_signals w ++ [(TERM, w_now w); (KILL, w_now w + si)] /\ w_now w' = w_now w + 2 * si
    else w_signals w' = w_signals w ++ [(TERM, w_now w)] /\ w_now w' = w_now w + si.
Proof.
  intros Hsi M E. rewrite killpg_eq by (apply (p_group b cap Hp), E). cbv zeta iota beta.
  assert (w_now (termed_ si w) = w_now w + si) as termed_now by (unfold termed_; rewrite sleep_now; [reflexivity|exact Hsi]).
  assert (w_signals (termed_ si w) = w_signals w ++ [(TERM, w_now w)]) as termed_signals by (unfold termed_; rewrite sleep_signals; [reflexivity|exact Hsi]).
  fold (termed_ si w). unfold poll.
  assert (match b_code b (w_state (termed_ si w)) with None => true | Some _ => true end = true) as -> by (destruct (b_code b (w_state (termed_ si w))); reflexivity).
  destruct (b_group b (w_state (termed_ si w))) eqn:G.
  - rewrite killpg_eq by exact G. set (w1 := mkW _ _ _ _ _).
    destruct (M (w_state (termed_ si w))) as (M1 & M2).
    assert (b_group b (w_state (sleep b cap si w1)) = false) as G1.
    { apply (sleep_inv b cap (fun s => b_group b s = false)); [exact Hsi| |exact M1].
      intros ro re s. apply (p_empty b cap Hp). }
    assert (forall k, b_code b (w_state w1) = Some k -> b_code b (w_state (sleep b cap si w1)) = Some k) as C1.
    { intros k. apply (sleep_inv b cap (fun s => b_code b s = Some k)); [exact Hsi|].
      intros ro re s. apply (p_final b cap Hp). }
    assert (w_signals (sleep b cap si w1) = w_signals w ++ [(TERM, w_now w); (KILL, w_now w + si)]) as Sg.
    { rewrite sleep_signals by exact Hsi. unfold w1. cbn [w_signals]. rewrite termed_signals, termed_now, <- app_assoc. reflexivity. }
    assert (w_now (sleep b cap si w1) = w_now w + 2 * si) as N.
    { rewrite sleep_now by exact Hsi. unfold w1. cbn [w_now]. rewrite termed_now. lia. }
    destruct (b_code b (w_state (termed_ si w))) as [k|] eqn:K.
    + assert (b_code b (w_state (sleep b cap si w1)) = Some k) as C by (apply C1, (p_final_kill b cap Hp), K).
      exists k, (sleep b cap si w1). split; [reflexivity|]. split; [exact C|]. split; [exact G1|]. split; [discriminate|].
      split; [intros k' Ek; congruence|]. split; [exact Sg|exact N].
    + assert (b_code b (w_state (sleep b cap si w1)) = Some (-9)) as C by (apply C1, M2; reflexivity).
      exists (-9), (sleep b cap si w1). rewrite C. split; [reflexivity|]. split; [reflexivity|]. split; [exact G1|]. split; [reflexivity|].
      split; [discriminate|]. split; [exact Sg|exact N].
  - unfold killpg. rewrite G. destruct (b_code b (w_state (termed_ si w))) as [k|] eqn:K.
    + exists k, (termed_ si w). split; [reflexivity|]. split; [exact K|]. split; [exact G|]. split; [discriminate|]. split; [intros k' Ek; congruence|].
      split; [apply termed_signals|apply termed_now].
    + rewrite (p_group b cap Hp _ K) in G. discriminate G.
Qed.
Lemma time_out_spec w : mortal b -> b_code b (w_state w) = None ->
  exists c w', time_out b cap true w = (Some c, w') /\ b_code b (w_state w') = Some c /\ b_group b (w_state w') = false /\
    (b_code b (w_state (termed w)) = None -> c = -9) /\ (forall k, b_code b (w_state (termed w)) = Some k -> c = k) /\
    if b_group b (w_state (termed w)) then
      w_signals w' = w_signals w ++ [(TERM, w_now w); (KILL, w_now w + SLEEP_INTERVAL)] /\ w_now w' = w_now w + 2 * SLEEP_INTERVAL
    else w_signals w' = w_signals w ++ [(TERM, w_now w)] /\ w_now w' = w_now w + SLEEP_INTERVAL.
Proof. intros M E. apply (time_out_gen SLEEP_INTERVAL w); [slp|exact M|exact E]. Qed.

Lemma wait_late timeout :
  0 <= timeout -> (forall n : nat, Z.of_nat n <= timeout + 2 * second -> b_code b (fst (unread b cap n)) = None) ->
  exists m, wait b cap timeout (start_world b) = (None, world_of b cap m []) /\ b_code b (fst (unread b cap m)) = None /\
    let g := Z.of_nat m - timeout in 0 < g /\ g <= 2 * second /\ g * (g - 1) <= 2 * timeout.
Proof.
  intros Ht Hn. destruct (wait_spec b cap Hp timeout) as (m & Em & R & B). cbv zeta in B. unfold SLEEP_TIME in B.
  assert (Z.max 0 timeout = timeout) as Ez by lia. rewrite Ez in B.
  assert (b_code b (fst (unread b cap m)) = None) as E by (apply Hn; unfold second; lia).
  rewrite E in Em, R. exists m. split; [exact Em|]. split; [exact E|]. cbv zeta. unfold second. split; [lia|]. split; [lia|]. apply B. lia.
Qed.

Definition in_time (timeout t : Z) : Prop := let g := t - timeout in 0 < g <= 2 * second /\ g * (g - 1) <= 2 * timeout.

Lemma late_spec fuel level timeout output codes :
  mortal b -> 0 <= timeout -> (forall n : nat, Z.of_nat n <= timeout + 2 * second -> b_code b (fst (unread b cap n)) = None) ->
  exists m c w', in_time timeout (Z.of_nat m) /\
    execute_cmd b cap fuel true level timeout output true codes = collect b cap fuel level codes output (Some c) w' /\
    b_code b (w_state w') = Some c /\ b_group b (w_state w') = false /\
    (b_code b (w_state (termed (world_of b cap m []))) = None -> c = -9) /\ (forall k, b_code b (w_state (termed (world_of b cap m []))) = Some k -> c = k) /\
    b_code b (fst (unread b cap m)) = None /\
    if b_group b (w_state (termed (world_of b cap m []))) then
      w_signals w' = [(TERM, Z.of_nat m); (KILL, Z.of_nat m + SLEEP_INTERVAL)] /\ w_now w' = Z.of_nat m + 2 * SLEEP_INTERVAL
    else w_signals w' = [(TERM, Z.of_nat m)] /\ w_now w' = Z.of_nat m + SLEEP_INTERVAL.
Proof.
  intros M Ht Hn. destruct (wait_late timeout Ht Hn) as (m & Em & Ec & G1 & G2 & G3).
  destruct (time_out_spec (world_of b cap m []) M) as (c & w' & Et & C & G & K1 & K2 & R); [rewrite w_state_of; exact Ec|].
  exists m, c, w'. split; [unfold in_time; cbv zeta; lia|]. unfold execute_cmd. cbn [negb]. rewrite Em, Et. split; [reflexivity|].
  rewrite w_now_of, w_signals_of in R. split; [exact C|]. split; [exact G|]. split; [exact K1|]. split; [exact K2|]. split; [exact Ec|exact R].
Qed.

Lemma stopped fuel level timeout output codes :
  mortal b -> 0 <= timeout -> (forall n : nat, Z.of_nat n <= timeout + 2 * second -> b_code b (fst (unread b cap n)) = None) ->
  exists t w, the_world (execute_cmd b cap fuel true level timeout output true codes) = w /\ in_time timeout t /\
    (w_signals w = [(TERM, t)] \/ w_signals w = [(TERM, t); (KILL, t + 20000)]) /\ b_group b (w_state w) = false /\
    exists c, b_code b (w_state w) = Some c /\
      match execute_cmd b cap fuel true level timeout output true codes with
      | Done r _ => exists o e, answer codes output (Some c) o e r
      | Blocked _ => 0 <= c
      end.
Proof.
  intros M Ht Hn. destruct (late_spec fuel level timeout output codes M Ht Hn) as (m & c & w' & It & -> & C & G & _ & _ & _ & R).
  exists (Z.of_nat m), (the_world (collect b cap fuel level codes output (Some c) w')). split; [reflexivity|]. split; [exact It|].
  destruct (collect_inv b cap (fun s => b_group b s = false /\ b_code b s = Some c) fuel level codes output (Some c) w') as ((I1 & I2) & I3).
  { intros ro re s (A & B). split; [apply (p_empty b cap Hp), A|apply (p_final b cap Hp), B]. }
  { split; [exact G|exact C]. }
  rewrite I3. split.
  { rewrite ?interval in R. destruct (b_group b (w_state (termed (world_of b cap m [])))); destruct R as (R & _); auto. }
  split; [exact I1|]. exists c. split; [exact I2|].
  pose proof (collect_spec b cap fuel level codes output c w') as Q. destruct (collect b cap fuel level codes output (Some c) w'); tauto.
Qed.

Lemma bounded fuel level timeout output codes :
  mortal b -> contained b -> 0 <= timeout -> (forall n : nat, Z.of_nat n <= timeout + 2 * second -> b_code b (fst (unread b cap n)) = None) ->
  exists t r w, execute_cmd b cap fuel true level timeout output true codes = Done r w /\ in_time timeout t /\ t + 20000 <= w_now w <= t + 40000.
Proof.
  intros M Co Ht Hn. destruct (late_spec fuel level timeout output codes M Ht Hn) as (m & c & w' & It & -> & C & G & _ & _ & _ & R).
  destruct (Co _ G) as (Go & Ge).
  destruct (collect_free b cap fuel level codes output c w') as (r & w & Er & En & _); [auto|].
  exists (Z.of_nat m), r, w. split; [exact Er|]. split; [exact It|]. rewrite En. rewrite ?interval in R.
  destruct (b_group b (w_state (termed (world_of b cap m [])))); lia.
Qed.

Lemma termed_ignored m : (forall s, b_term b s = s) -> termed (world_of b cap m []) = world_of b cap (m + Z.to_nat SLEEP_INTERVAL) [(TERM, Z.of_nat m)].
Proof.
  intros H. unfold termed, termed_. rewrite H, w_signals_of, w_now_of. cbn [app].
  rewrite <- (sleep_of b cap SLEEP_INTERVAL m) by (slp). f_equal.
  unfold world_of. destruct (unread b cap m) as (s, (o, e)). reflexivity.
Qed.
Lemma ignores fuel level timeout output codes :
  mortal b -> (forall s, b_term b s = s) -> 0 <= timeout -> (forall n : nat, b_code b (fst (unread b cap n)) = None) ->
  exists t r w, execute_cmd b cap fuel true level timeout output true codes = Done r w /\ in_time timeout t /\
    w_signals w = [(TERM, t); (KILL, t + 20000)] /\ w_now w = t + 40000 /\ exists o e, answer codes output (Some (-9)) o e r.
Proof.
  intros M I Ht Hn. destruct (late_spec fuel level timeout output codes M Ht) as (m & c & w' & It & -> & C & G & K & _ & _ & R); [intros n _; apply Hn|].
  rewrite (termed_ignored m I), w_state_of in K, R. specialize (K (Hn _)). subst c.
  rewrite (p_group b cap Hp _ (Hn _)) in R. destruct R as (R1 & R2).
  destruct (collect_free b cap fuel level codes output (-9) w') as (r & w & Er & En & _ & Eg & A); [left; lia|].
  exists (Z.of_nat m), r, w. split; [exact Er|]. split; [exact It|]. rewrite ?interval in *. split; [congruence|]. split; [lia|]. eauto.
Qed.
Lemma obeys fuel level timeout output codes k :
  mortal b -> (forall s, b_code b s = None -> b_group b (b_term b s) = false /\ b_code b (b_term b s) = Some k) -> k < 0 ->
  0 <= timeout -> (forall n : nat, Z.of_nat n <= timeout + 2 * second -> b_code b (fst (unread b cap n)) = None) ->
  exists t r w, execute_cmd b cap fuel true level timeout output true codes = Done r w /\ in_time timeout t /\
    w_signals w = [(TERM, t)] /\ w_now w = t + 20000 /\ exists o e, answer codes output (Some k) o e r.
Proof.
  intros M I Hk Ht Hn. destruct (late_spec fuel level timeout output codes M Ht Hn) as (m & c & w' & It & -> & C & G & _ & K & Ec & R).
  destruct (I _ Ec) as (I1 & I2). rewrite <- (w_state_of b cap m []) in I1, I2.
  assert (b_group b (w_state (termed (world_of b cap m []))) = false) as T1.
  { unfold termed, termed_. apply (sleep_inv b cap (fun s => b_group b s = false)); [slp| |exact I1]. intros ro re s. apply (p_empty b cap Hp). }
  assert (b_code b (w_state (termed (world_of b cap m []))) = Some k) as T2.
  { unfold termed, termed_. apply (sleep_inv b cap (fun s => b_code b s = Some k)); [slp| |exact I2]. intros ro re s. apply (p_final b cap Hp). }
  rewrite (K _ T2) in *. rewrite T1 in R. destruct R as (R1 & R2).
  destruct (collect_free b cap fuel level codes output k w') as (r & w & Er & En & _ & Eg & A); [left; lia|].
  exists (Z.of_nat m), r, w. split; [exact Er|]. split; [exact It|]. rewrite ?interval in *. split; [congruence|]. split; [lia|]. eauto.
Qed.

(** signals are sent only after the timeout *)
Lemma killpg_signals g (w w' : world S) : killpg b g w = Some w' -> w_signals w' = w_signals w ++ [(g, w_now w)] /\ w_now w' = w_now w.
Proof. unfold killpg. destruct (b_group b (w_state w)); [|discriminate]. intros E. injection E as <-. split; reflexivity. Qed.
Lemma time_out_signals si kill_tree w code w' g t : 0 <= si ->
  match killpg b TERM w with
  | None => (None, w)
  | Some w =>
      let w := sleep b cap si w in
      let code := poll b w in
      if match code with None => true | Some _ => kill_tree end then
        match killpg b KILL w with
        | None => (code, w)
        | Some w =>
            let w := sleep b cap si w in
            (match code with None => poll b w | Some c => Some c end, w)
        end
      else (code, w)
  end = (code, w') -> w_signals w = [] -> In (g, t) (w_signals w') -> w_now w <= t.
Proof.
  intros Hsi Et W0 Hin. destruct (killpg b TERM w) as [w1|] eqn:E1; cycle 1.
  { injection Et as <- <-. rewrite W0 in Hin. destruct Hin. }
  apply killpg_signals in E1. destruct E1 as (S1 & N1). rewrite W0 in S1. cbn [app] in S1.
  cbv zeta in Et. pose proof (sleep_signals b cap si w1 Hsi) as S2. pose proof (sleep_now b cap si w1 Hsi) as N2.
  destruct (sleep b cap si w1) as (s2, n2, o2, e2, g2) eqn:W2. rewrite <- W2 in *.
  assert (In (g, t) (w_signals (sleep b cap si w1)) -> w_now w <= t) as D2.
  { rewrite S2, S1. intros [E|[]]. injection E as <- <-. lia. }
  destruct (match poll b (sleep b cap si w1) with None => true | Some _ => kill_tree end); [|injection Et as <- <-; exact (D2 Hin)].
  destruct (killpg b KILL (sleep b cap si w1)) as [w3|] eqn:E3; [|injection Et as <- <-; exact (D2 Hin)].
  apply killpg_signals in E3. destruct E3 as (S3 & N3). injection Et as <- <-.
  rewrite sleep_signals, S3, in_app_iff in Hin by exact Hsi.
  destruct Hin as [H|[E|[]]]; [exact (D2 H)|]. injection E as <- <-. lia.
Qed.
Lemma signals_late fuel started level timeout output kill_tree codes g t :
  In (g, t) (w_signals (the_world (execute_cmd b cap fuel started level timeout output kill_tree codes))) ->
  timeout < t /\ forall n : nat, Z.of_nat n <= timeout -> b_code b (fst (unread b cap n)) = None.
Proof.
  unfold execute_cmd. destruct started; [|intros []]. cbn [negb].
  destruct (wait_spec b cap Hp timeout) as (m & Em & R & _). rewrite Em.
  destruct (b_code b (fst (unread b cap m))) as [c|] eqn:Ec.
  - destruct (collect_inv b cap (fun _ => True) fuel level codes output (Some c) (world_of b cap m [])) as (_ & ->); [auto|exact I|].
    rewrite w_signals_of. intros [].
  - destruct (time_out b cap kill_tree (world_of b cap m [])) as (code, w) eqn:Et.
    destruct (collect_inv b cap (fun _ => True) fuel level codes output code w) as (_ & ->); [auto|exact I|].
    intros Hin. split; [|intros n Hn; apply (unread_none b cap Hp n m); [lia|exact Ec]].
    assert (0 <= SLEEP_INTERVAL) as Hsi by slp.
    pose proof (time_out_signals SLEEP_INTERVAL kill_tree (world_of b cap m []) code w g t Hsi Et (w_signals_of b cap m []) Hin) as L.
    rewrite w_now_of in L. lia.
Qed.

(** a command that closes its pipes is over in time *)
Lemma over fuel level timeout codes :
  mortal b -> closes b -> 0 <= timeout ->
  exists r w, execute_cmd b cap fuel true level timeout false true codes = Done r w /\ 0 <= w_now w <= timeout + 240000.
Proof.
  intros M Cl Ht. unfold execute_cmd. cbn [negb]. destruct (wait_spec b cap Hp timeout) as (m & Em & R & B). cbv zeta in B. unfold SLEEP_TIME in B.
  rewrite Em. destruct (b_code b (fst (unread b cap m))) as [c|] eqn:Ec.
  - destruct (collect_free b cap fuel level codes false c (world_of b cap m [])) as (r & w & Er & En & _).
    { right; right. rewrite w_state_of. exact (Cl _ _ Ec). }
    exists r, w. split; [exact Er|]. rewrite En, w_now_of. lia.
  - destruct (time_out_spec (world_of b cap m []) M) as (c & w' & Et & C & G & K1 & K2 & Q); [rewrite w_state_of; exact Ec|].
    rewrite Et. destruct (collect_free b cap fuel level codes false c w') as (r & w & Er & En & _).
    { right; right. exact (Cl _ _ C). }
    exists r, w. split; [exact Er|]. rewrite En. rewrite w_now_of in Q. rewrite ?interval in Q.
    destruct (b_group b (w_state (termed (world_of b cap m [])))); lia.
Qed.
End P.

Lemma deadlines_mono ts : forall a c, a <= c -> Forall2 Z.le (deadlines a ts) (deadlines c ts).
Proof.
  induction ts as [|t ts IH]; intros a c H; cbn [deadlines]; [constructor|]. constructor; [lia|]. apply IH. lia.
Qed.
Lemma queue_done {S} cap fuel level (cs : list (behaviour S * Z)) :
  0 <= cap -> Forall (fun c => process (fst c) cap /\ mortal (fst c) /\ closes (fst c) /\ 0 <= snd c) cs ->
  forall now, Forall2 (fun rt d => snd rt <= d) (queue cap fuel level now cs) (deadlines now (map snd cs)).
Proof.
  intros Hcap H. induction H as [|(b, t) cs (Hp & M & Cl & Ht) H IH]; intros now; cbn [queue map deadlines fst snd] in *; [constructor|].
  unfold action_cmd. destruct (over b cap Hp fuel level t [0] M Cl Ht) as (r & w & -> & Hw).
  constructor; [cbn [snd]; lia|]. specialize (IH (now + w_now w)).
  assert (forall (A : Type) (f : A -> Z) l d1 d2, Forall2 (fun x d => f x <= d) l d1 -> Forall2 Z.le d1 d2 -> Forall2 (fun x d => f x <= d) l d2) as Tr.
  { clear. intros A f l. induction l as [|x l IH]; intros d1 d2 F1 F2; inversion F1; subst; inversion F2; subst; constructor; [lia|eauto]. }
  eapply (Tr _ snd); [exact IH|]. apply deadlines_mono. lia.
Qed.
