From Coq Require Import ZArith List Bool Lia ZifyBool ZifyNat.
From Verif Require Import Base Exec_Model Exec_Spec.
Import ListNotations.
Local Open Scope Z_scope.

Section P.
Context {S : Type} (b : behaviour S) (cap : Z) (Hp : process b cap) (Hcap : 0 <= cap).

Definition world_of (n : nat) (sg : list (signal * Z)) : world S :=
  let '(s, (o, e)) := unread b cap n in mkW s (Z.of_nat n) o e sg.

Lemma unread_S n : unread b cap (Datatypes.S n) =
  let x := unread b cap n in
  let '(s', (o, e)) := b_tick b (cap - fst (snd x)) (cap - snd (snd x)) (fst x) in
  (s', (fst (snd x) + o, snd (snd x) + e)).
Proof. reflexivity. Qed.
Lemma alone_S n : alone b cap (Datatypes.S n) =
  let x := alone b cap n in
  let '(s', (o, e)) := b_tick b cap cap (fst x) in (s', (fst (snd x) + o, snd (snd x) + e)).
Proof. reflexivity. Qed.

Lemma w_state_of n sg : w_state (world_of n sg) = fst (unread b cap n).
Proof. unfold world_of. destruct (unread b cap n) as (s, (o, e)). reflexivity. Qed.
Lemma w_now_of n sg : w_now (world_of n sg) = Z.of_nat n.
Proof. unfold world_of. destruct (unread b cap n) as (s, (o, e)). reflexivity. Qed.
Lemma w_signals_of n sg : w_signals (world_of n sg) = sg.
Proof. unfold world_of. destruct (unread b cap n) as (s, (o, e)). reflexivity. Qed.
Lemma poll_of n sg : poll b (world_of n sg) = b_code b (fst (unread b cap n)).
Proof. unfold poll. now rewrite w_state_of. Qed.

Lemma tick_of n sg : tick b cap (world_of n sg) = world_of (Datatypes.S n) sg.
Proof.
  unfold tick, world_of. rewrite unread_S. destruct (unread b cap n) as (s, (o, e)). cbn [w_out w_err w_state fst snd w_now w_signals].
  destruct (b_tick b (cap - o) (cap - e) s) as (s', (o', e')). cbv zeta. f_equal. lia.
Qed.

Lemma sleep_nat n (w : world S) : sleep b cap (Z.of_nat n) w = Nat.iter n (tick b cap) w.
Proof.
  unfold sleep, Z.iter. destruct n as [|n]; [reflexivity|]. cbn [Z.of_nat].
  rewrite Pos2Nat.inj_iter, SuccNat2Pos.id_succ. reflexivity.
Qed.
Lemma sleep_of k n sg : 0 <= k -> sleep b cap k (world_of n sg) = world_of (n + Z.to_nat k) sg.
Proof.
  intros H. rewrite <- (Z2Nat.id k) at 1 by lia. rewrite sleep_nat. generalize (Z.to_nat k) as m. induction m as [|m IH].
  - cbn. f_equal. lia.
  - cbn [Nat.iter nat_rect]. unfold Nat.iter in IH. rewrite IH, tick_of. f_equal. lia.
Qed.
Lemma sleep_now k (w : world S) : 0 <= k -> w_now (sleep b cap k w) = w_now w + k.
Proof.
  intros H. rewrite <- (Z2Nat.id k) by lia. rewrite sleep_nat. generalize (Z.to_nat k) as m. induction m as [|m IH].
  - cbn. lia.
  - cbn [Nat.iter nat_rect]. unfold Nat.iter in IH. unfold tick at 1. destruct (b_tick _ _ _ _) as (s, (o, e)). cbn [w_now]. rewrite IH. lia.
Qed.
Lemma sleep_signals k (w : world S) : 0 <= k -> w_signals (sleep b cap k w) = w_signals w.
Proof.
  intros H. rewrite <- (Z2Nat.id k) by lia. rewrite sleep_nat. generalize (Z.to_nat k) as m. induction m as [|m IH]; [reflexivity|].
  cbn [Nat.iter nat_rect]. unfold Nat.iter in IH. unfold tick at 1. destruct (b_tick _ _ _ _) as (s, (o, e)). cbn [w_signals]. exact IH.
Qed.
Lemma sleep_inv (P : S -> Prop) k (w : world S) :
  0 <= k -> (forall ro re s, P s -> P (fst (b_tick b ro re s))) -> P (w_state w) -> P (w_state (sleep b cap k w)).
Proof.
  intros H T. rewrite <- (Z2Nat.id k) by lia. rewrite sleep_nat. generalize (Z.to_nat k) as m. intros m HP. induction m as [|m IH]; [exact HP|].
  cbn [Nat.iter nat_rect]. unfold Nat.iter in IH. unfold tick at 1.
  match type of IH with P (w_state ?x) => pose proof (T (cap - w_out x) (cap - w_err x) _ IH) as Q end.
  destruct (b_tick _ _ _ _) as (s, (o, e)). exact Q.
Qed.

(** an exit status is final *)
Lemma unread_final n m c : (n <= m)%nat -> b_code b (fst (unread b cap n)) = Some c -> b_code b (fst (unread b cap m)) = Some c.
Proof.
  intros H E. induction H as [|m H IH]; [exact E|]. rewrite unread_S. cbv zeta.
  pose proof (p_final b cap Hp (cap - fst (snd (unread b cap m))) (cap - snd (snd (unread b cap m))) _ _ IH) as Q.
  destruct (b_tick _ _ _ _) as (s, (o, e)). exact Q.
Qed.
Lemma unread_none n m : (n <= m)%nat -> b_code b (fst (unread b cap m)) = None -> b_code b (fst (unread b cap n)) = None.
Proof.
  intros H E. destruct (b_code b (fst (unread b cap n))) eqn:F; [|reflexivity]. apply (unread_final n m z H) in F. congruence.
Qed.

(** the waiting *)
Lemma wait_end_spec fuel : forall stm time0 n,
  0 <= stm <= SLEEP_TIME -> stm * (stm + 1) <= 2 * Z.of_nat n ->
  (forall m, (m < n)%nat -> Z.of_nat m <= Z.of_nat n - stm -> b_code b (fst (unread b cap m)) = None) ->
  (1 <= fuel)%nat -> time0 + 2 <= Z.of_nat n + Z.of_nat fuel -> (stm = 0 -> Z.of_nat n <= Z.max 0 time0) -> Z.of_nat n - stm <= Z.max 0 time0 ->
  exists m, (n <= m)%nat /\
    wait_end b cap fuel stm time0 (world_of n []) = (b_code b (fst (unread b cap m)), world_of m []) /\
    match b_code b (fst (unread b cap m)) with
    | Some _ => forall d c, b_code b (fst (unread b cap d)) = Some c -> (d <= m)%nat ->
                            let g := Z.of_nat m - Z.of_nat d in g * (g + 1) <= 2 * Z.of_nat d /\ g < SLEEP_TIME
    | None => time0 < Z.of_nat m
    end /\
    let g := Z.of_nat m - Z.max 0 time0 in g <= SLEEP_TIME /\ (0 <= g -> g * (g - 1) <= 2 * Z.max 0 time0).
Proof.
  induction fuel as [|fuel IH]; intros stm time0 n Hs Hq Hn Hf Hfu H0 H1; [lia|].
  cbn [wait_end]. rewrite poll_of. destruct (b_code b (fst (unread b cap n))) as [c|] eqn:E.
  - exists n. split; [lia|]. rewrite E. split; [reflexivity|]. cbv beta iota.
    assert (Z.of_nat n - Z.max 0 time0 <= stm) by lia. split; [|cbv zeta; split; [lia|intros G; nia]]. intros d c0 Ed Hd. set (g := Z.of_nat n - Z.of_nat d).
    assert (g = 0 \/ g < stm) as G.
    { destruct (Nat.eq_dec d n) as [->|Nd]; [left; unfold g; lia|right]. destruct (Z_lt_le_dec g stm) as [L|L]; [exact L|].
      rewrite (Hn d) in Ed; [discriminate Ed| lia| unfold g in L; lia]. }
    assert (0 <= g) by (unfold g; lia).
    destruct G as [-> | G]; [unfold SLEEP_TIME; lia|].
    split; [|unfold SLEEP_TIME in *; lia].
    assert (Z.of_nat d = Z.of_nat n - g) as -> by (unfold g; lia).
    nia.
  - rewrite w_now_of. destruct (Z.of_nat n >? time0) eqn:Et.
    + exists n. split; [lia|]. rewrite E. split; [reflexivity|]. split; [lia|]. cbv zeta.
      assert (Z.of_nat n - Z.max 0 time0 <= stm) by lia. split; [lia|]. intros G.
      nia.
    + set (stm' := Z.min (stm + SHORTEST_INTERVAL) SLEEP_TIME).
      assert (1 <= stm' <= stm + 1 /\ stm' <= SLEEP_TIME) as Hs' by (unfold stm', SHORTEST_INTERVAL, SLEEP_TIME in *; lia).
      rewrite sleep_of by lia.
      assert (Z.of_nat (n + Z.to_nat stm') = Z.of_nat n + stm') as En by lia.
      destruct (IH stm' time0 (n + Z.to_nat stm')%nat) as (m & Hm & Em & R).
      * lia.
      * rewrite En. nia.
      * intros m Hm Hm'. apply (unread_none m n); [lia|exact E].
      * lia.
      * lia.
      * lia.
      * lia.
      * exists m. split; [lia|]. split; [exact Em|exact R].
Qed.

Lemma start_of : start_world b = world_of 0 [].
Proof. reflexivity. Qed.

Lemma wait_spec timeout : 
  exists m,
    wait b cap timeout (start_world b) = (b_code b (fst (unread b cap m)), world_of m []) /\
    match b_code b (fst (unread b cap m)) with
    | Some _ => forall d c, b_code b (fst (unread b cap d)) = Some c -> (d <= m)%nat ->
                            let g := Z.of_nat m - Z.of_nat d in g * (g + 1) <= 2 * Z.of_nat d /\ g < SLEEP_TIME
    | None => timeout < Z.of_nat m
    end /\
    let g := Z.of_nat m - Z.max 0 timeout in g <= SLEEP_TIME /\ (0 <= g -> g * (g - 1) <= 2 * Z.max 0 timeout).
Proof.
  unfold wait. rewrite start_of, poll_of. destruct (b_code b (fst (unread b cap 0))) as [c|] eqn:E.
  - exists 0%nat. rewrite E. split; [reflexivity|].
    split; [|unfold SLEEP_TIME; cbv zeta; split; [lia|intros G; assert (Z.max 0 timeout = 0) as -> by lia; lia]].
    intros d c' _ Hd. assert (d = 0%nat) as -> by lia. cbv zeta. unfold SLEEP_TIME. lia.
  - rewrite w_now_of. destruct (wait_end_spec (Z.to_nat timeout + 3) 0 (Z.of_nat 0 + timeout) 0) as (m & _ & Em & R).
    + unfold SLEEP_TIME. lia.
    + lia.
    + intros m Hm. lia.
    + lia.
    + lia.
    + lia.
    + lia.
    + exists m. split; [exact Em|]. rewrite Z.add_0_l in R. exact R.
Qed.
End P.
