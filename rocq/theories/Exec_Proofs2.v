From Coq Require Import ZArith List Bool Lia ZifyBool ZifyNat.
From Verif Require Import Base Exec_Model Exec_Spec Exec_Proofs.
Import ListNotations.
Local Open Scope Z_scope.

Definition the_world {S} (o : outcome S) : world S := match o with Done _ w => w | Blocked w => w end.

Section P.
Context {S : Type} (b : behaviour S) (cap : Z) (Hp : process b cap) (Hcap : 0 <= cap).

Lemma succeeds codes (c : Z) : existsb (Z.eqb c) codes = true <-> exists n, Some c = Some n /\ In n codes.
Proof.
  rewrite existsb_exists. split.
  - intros (x & Hx & E). apply Z.eqb_eq in E. subst x. eauto.
  - intros (n & E & Hn). injection E as <-. exists c. split; [exact Hn|apply Z.eqb_refl].
Qed.
Lemma unknown codes : false = true <-> exists n : Z, @None Z = Some n /\ In n codes.
Proof. split; [discriminate|intros (n & E & _); discriminate E]. Qed.

Lemma finish_answer codes output code o e w :
  exists r, finish codes output code (Some o) (Some e) w = @Done S r w /\ answer codes output code o e r.
Proof.
  unfold finish. eexists. split; [reflexivity|].
  assert ((match code with Some c => existsb (Z.eqb c) codes | None => false end) = true <-> exists n, code = Some n /\ In n codes) as A
    by (destruct code; [apply succeeds|apply unknown]).
  destruct output; [|destruct (Nat.eqb_spec (length codes) 1)]; cbn [answer]; cbv zeta; auto 10.
Qed.
Lemma finish_quiet codes code o e w :
  exists r, finish codes false code o e w = @Done S r w /\ forall o e, answer codes false code o e r.
Proof.
  unfold finish. eexists. split; [reflexivity|].
  assert ((match code with Some c => existsb (Z.eqb c) codes | None => false end) = true <-> exists n, code = Some n /\ In n codes) as A
    by (destruct code; [apply succeeds|apply unknown]).
  intros o' e'. destruct (Nat.eqb_spec (length codes) 1); cbn [answer]; cbv zeta; auto 10.
Qed.

Lemma read_out_signals fuel : forall n (w : world S), w_signals (snd (read_out b cap fuel n w)) = w_signals w.
Proof.
  induction fuel as [|fuel IH]; intros n w; cbn [read_out]; destruct (b_out b (w_state w)); try reflexivity.
  rewrite IH. unfold tick_out. destruct (b_tick _ _ _ _) as (s, (o, e)). reflexivity.
Qed.
Lemma read_err_signals fuel : forall n (w : world S), w_signals (snd (read_err b cap fuel n w)) = w_signals w.
Proof.
  induction fuel as [|fuel IH]; intros n w; cbn [read_err]; destruct (b_err b (w_state w)); try reflexivity.
  rewrite IH. unfold tick_err. destruct (b_tick _ _ _ _) as (s, (o, e)). reflexivity.
Qed.
Lemma read_out_inv (P : S -> Prop) fuel : (forall ro re s, P s -> P (fst (b_tick b ro re s))) ->
  forall n (w : world S), P (w_state w) -> P (w_state (snd (read_out b cap fuel n w))).
Proof.
  intros T. induction fuel as [|fuel IH]; intros n w Hw; cbn [read_out]; destruct (b_out b (w_state w)); try exact Hw.
  apply IH. unfold tick_out. pose proof (T cap (cap - w_err w) _ Hw) as Q. destruct (b_tick _ _ _ _) as (s, (o, e)). exact Q.
Qed.
Lemma read_err_inv (P : S -> Prop) fuel : (forall ro re s, P s -> P (fst (b_tick b ro re s))) ->
  forall n (w : world S), P (w_state w) -> P (w_state (snd (read_err b cap fuel n w))).
Proof.
  intros T. induction fuel as [|fuel IH]; intros n w Hw; cbn [read_err]; destruct (b_err b (w_state w)); try exact Hw.
  apply IH. unfold tick_err. pose proof (T (cap - w_out w) cap _ Hw) as Q. destruct (b_tick _ _ _ _) as (s, (o, e)). exact Q.
Qed.

(** what [collect] gives in general *)
Lemma collect_spec fuel level codes output c (w : world S) :
  match collect b cap fuel level codes output (Some c) w with
  | Done r w' => w_signals w' = w_signals w /\ exists o e, answer codes output (Some c) o e r
  | Blocked w' => w_signals w' = w_signals w /\ 0 <= c /\ is_read level codes output c = true
  end.
Proof.
  unfold collect. unfold is_read, DEBUG, ERROR.
  destruct (output || (level <=? (if existsb (Z.eqb c) codes then 10 else 40))) eqn:R.
  - destruct (c <? 0) eqn:C.
    + destruct (finish_answer codes output (Some c) (w_out w) (w_err w) w) as (r & -> & A). eauto.
    + pose proof (read_out_signals fuel 0 w) as E1. destruct (read_out b cap fuel 0 w) as ([o|], w1); cbn [snd] in E1.
      * pose proof (read_err_signals fuel 0 w1) as E2. destruct (read_err b cap fuel 0 w1) as ([e|], w2); cbn [snd] in E2.
        -- destruct (finish_answer codes output (Some c) o e w2) as (r & -> & A). split; [congruence|eauto].
        -- split; [congruence|]. split; [lia|reflexivity].
      * split; [exact E1|]. split; [lia|reflexivity].
  - apply orb_false_iff in R. destruct R as (-> & _).
    destruct (finish_quiet codes (Some c) None None w) as (r & -> & A). split; [reflexivity|]. exists 0, 0. apply A.
Qed.
Lemma collect_inv (P : S -> Prop) fuel level codes output code (w : world S) :
  (forall ro re s, P s -> P (fst (b_tick b ro re s))) -> P (w_state w) ->
  P (w_state (the_world (collect b cap fuel level codes output code w))) /\
  w_signals (the_world (collect b cap fuel level codes output code w)) = w_signals w.
Proof.
  intros T Hw. unfold collect. match goal with |- context [if ?x then _ else _] => destruct x end; cycle 1.
  { split; [exact Hw|reflexivity]. }
  destruct (match code with None => true | Some c => c <? 0 end); [split; [exact Hw|reflexivity]|].
  pose proof (read_out_inv P fuel T 0 w Hw) as H1. pose proof (read_out_signals fuel 0 w) as E1.
  destruct (read_out b cap fuel 0 w) as ([o|], w1); cbn [snd] in H1, E1; [|split; [exact H1|exact E1]].
  pose proof (read_err_inv P fuel T 0 w1 H1) as H2. pose proof (read_err_signals fuel 0 w1) as E2.
  destruct (read_err b cap fuel 0 w1) as ([e|], w2); cbn [snd] in H2, E2; (split; [exact H2|cbn [the_world finish]; congruence]).
Qed.
(** when nobody holds the pipes, or nothing is read *)
Lemma collect_free fuel level codes output c (w : world S) :
  c < 0 \/ is_read level codes output c = false \/ (b_out b (w_state w) = false /\ b_err b (w_state w) = false) ->
  exists r w', collect b cap fuel level codes output (Some c) w = Done r w' /\ w_now w' = w_now w /\ w_state w' = w_state w /\
               w_signals w' = w_signals w /\ answer codes output (Some c) (w_out w) (w_err w) r.
Proof.
  intros H. unfold collect. unfold is_read, DEBUG, ERROR in *.
  destruct (output || (level <=? (if existsb (Z.eqb c) codes then 10 else 40))) eqn:R.
  - destruct (c <? 0) eqn:C.
    + destruct (finish_answer codes output (Some c) (w_out w) (w_err w) w) as (r & -> & A). eexists _, _. split; [reflexivity|]. auto.
    + destruct H as [H|[H|(Ho & He)]]; [lia|discriminate H|].
      assert (read_out b cap fuel 0 w = (Some (w_out w), mkW (w_state w) (w_now w) 0 (w_err w) (w_signals w))) as ->
        by (destruct fuel; cbn [read_out]; rewrite Ho, Z.add_0_l; reflexivity).
      assert (forall w, b_err b (w_state w) = false ->
              read_err b cap fuel 0 w = (Some (w_err w), mkW (w_state w) (w_now w) (w_out w) 0 (w_signals w))) as E
        by (intros w' Hw'; destruct fuel; cbn [read_err]; rewrite Hw', Z.add_0_l; reflexivity).
      rewrite E by exact He. cbn [w_state w_now w_out w_err w_signals].
      destruct (finish_answer codes output (Some c) (w_out w) (w_err w) (mkW (w_state w) (w_now w) 0 0 (w_signals w))) as (r & -> & A).
      eexists _, _. split; [reflexivity|]. auto.
  - apply orb_false_iff in R. destruct R as (-> & _).
    destruct (finish_quiet codes (Some c) None None w) as (r & -> & A). eexists _, _. split; [reflexivity|]. auto 10.
Qed.

(** ** Ended in time *)
Lemma wait_ended timeout d c :
  b_code b (fst (unread b cap d)) = Some c -> Z.of_nat d <= timeout ->
  exists m, wait b cap timeout (start_world b) = (Some c, world_of b cap m []) /\ b_code b (fst (unread b cap m)) = Some c /\
            ((d <= m)%nat -> let g := Z.of_nat m - Z.of_nat d in g * (g + 1) <= 2 * Z.of_nat d /\ g < SLEEP_TIME).
Proof.
  intros E Ht. destruct (wait_spec b cap Hp timeout) as (m & Em & R & _).
  destruct (b_code b (fst (unread b cap m))) as [c'|] eqn:Ec.
  - assert (c' = c) as ->.
    { destruct (Nat.le_ge_cases d m) as [L|L].
      - pose proof (unread_final b cap Hp d m c L E). congruence.
      - pose proof (unread_final b cap Hp m d c' L Ec). congruence. }
    exists m. split; [exact Em|]. split; [exact Ec|]. intros L. apply (R d c E L).
  - pose proof (unread_final b cap Hp d m c ltac:(lia) E). congruence.
Qed.

Lemma ended_status fuel level timeout output kill_tree codes d c :
  b_code b (fst (unread b cap d)) = Some c -> Z.of_nat d <= timeout ->
  match execute_cmd b cap fuel true level timeout output kill_tree codes with
  | Done r w => w_signals w = [] /\ exists o e, answer codes output (Some c) o e r
  | Blocked w => w_signals w = [] /\ 0 <= c /\ is_read level codes output c = true
  end.
Proof.
  intros E Ht. destruct (wait_ended timeout d c E Ht) as (m & Em & _ & _). unfold execute_cmd. cbn [negb]. rewrite Em.
  pose proof (collect_spec fuel level codes output c (world_of b cap m [])) as C. rewrite w_signals_of in C. exact C.
Qed.

Lemma unread_closed n m : (n <= m)%nat -> b_out b (fst (unread b cap n)) = false -> b_err b (fst (unread b cap n)) = false ->
  b_out b (fst (unread b cap m)) = false /\ b_err b (fst (unread b cap m)) = false /\ snd (unread b cap m) = snd (unread b cap n).
Proof.
  intros H Ho He. induction H as [|m H (IHo & IHe & IHs)]; [auto|]. rewrite unread_S. cbv zeta.
  pose proof (p_out b cap Hp (cap - fst (snd (unread b cap m))) (cap - snd (snd (unread b cap m))) _ IHo) as Qo.
  pose proof (p_err b cap Hp (cap - fst (snd (unread b cap m))) (cap - snd (snd (unread b cap m))) _ IHe) as Qe.
  destruct (b_tick _ _ _ _) as (s, (o, e)). cbn [fst snd] in *. destruct Qo as (Q1 & ->), Qe as (Q2 & ->). rewrite !Z.add_0_r.
  split; [exact Q1|]. split; [exact Q2|]. rewrite IHs. destruct (snd (unread b cap n)). reflexivity.
Qed.

Lemma ended_soon fuel level timeout output kill_tree codes d c :
  b_code b (fst (unread b cap d)) = Some c -> Z.of_nat d <= timeout ->
  (forall n, (n < d)%nat -> b_code b (fst (unread b cap n)) = None) ->
  c < 0 \/ is_read level codes output c = false \/ (b_out b (fst (unread b cap d)) = false /\ b_err b (fst (unread b cap d)) = false) ->
  exists r w n, execute_cmd b cap fuel true level timeout output kill_tree codes = Done r w /\
    w_now w = Z.of_nat d + n /\ 0 <= n < 2 * second /\ n * (n + 1) <= 2 * Z.of_nat d /\ w_signals w = [] /\
    w_state w = fst (unread b cap (d + Z.to_nat n)) /\
    answer codes output (Some c) (fst (snd (unread b cap (d + Z.to_nat n)))) (snd (snd (unread b cap (d + Z.to_nat n)))) r.
Proof.
  intros E Ht Hf H. destruct (wait_ended timeout d c E Ht) as (m & Em & Ec & G).
  assert (d <= m)%nat as Hdm by (destruct (Nat.le_gt_cases d m) as [L|L]; [exact L|rewrite (Hf m L) in Ec; discriminate Ec]).
  specialize (G Hdm). cbv zeta in G. unfold SLEEP_TIME in G.
  destruct (collect_free fuel level codes output c (world_of b cap m [])) as (r & w & Er & En & Es & Eg & A).
  { destruct H as [H|[H|(Ho & He)]]; [auto|auto|right; right]. rewrite w_state_of.
    destruct (unread_closed d m Hdm Ho He) as (A & B & _). auto. }
  exists r, w, (Z.of_nat m - Z.of_nat d). unfold execute_cmd. cbn [negb]. rewrite Em. split; [exact Er|].
  rewrite w_now_of in En. rewrite w_state_of in Es. rewrite w_signals_of in Eg.
  replace (d + Z.to_nat (Z.of_nat m - Z.of_nat d))%nat with m by lia.
  split; [lia|]. split; [unfold second; lia|]. split; [lia|]. split; [exact Eg|]. split; [exact Es|].
  revert A. unfold world_of. destruct (unread b cap m) as (s, (o, e)). auto.
Qed.

(** ** Output that fits *)
Lemma alone_room n : 0 <= fst (snd (alone b cap n)) <= fst (snd (alone b cap (Datatypes.S n))) /\
                     0 <= snd (snd (alone b cap n)) <= snd (snd (alone b cap (Datatypes.S n))).
Proof.
  induction n as [|n IH].
  - rewrite alone_S. cbv zeta. pose proof (p_room b cap Hp cap cap (fst (alone b cap 0))) as R.
    destruct (b_tick b cap cap (fst (alone b cap 0))) as (s, (o, e)). specialize (R s o e Hcap Hcap eq_refl). cbn [fst snd alone Nat.iter nat_rect] in *. lia.
  - rewrite (alone_S b cap (Datatypes.S n)). cbv zeta. pose proof (p_room b cap Hp cap cap (fst (alone b cap (Datatypes.S n)))) as R.
    destruct (b_tick b cap cap _) as (s, (o, e)). specialize (R s o e Hcap Hcap eq_refl). cbn [fst snd] in *. lia.
Qed.
Definition fits (N : nat) : Prop := fst (snd (alone b cap N)) <= cap /\ snd (snd (alone b cap N)) <= cap.
Lemma fits_le n N : (n <= N)%nat -> fits N -> fits n.
Proof.
  intros H F. induction H as [|N H IH]; [exact F|]. apply IH. unfold fits in *. pose proof (alone_room N). lia.
Qed.
Lemma fits_unread n : fits n -> unread b cap n = alone b cap n.
Proof.
  induction n as [|n IH]; intros F; [reflexivity|].
  assert (fits n) as Fn by (apply (fits_le n (Datatypes.S n)); [lia|exact F]).
  rewrite unread_S, alone_S, (IH Fn). cbv zeta. unfold fits in *. rewrite alone_S in F. cbv zeta in F. pose proof (alone_room n) as A. rewrite alone_S in A. cbv zeta in A.
  destruct (b_tick b cap cap (fst (alone b cap n))) as (s, (o, e)) eqn:E. cbn [fst snd] in F, A.
  pose proof (p_room b cap Hp cap cap _ _ _ _ Hcap Hcap E) as R.
  rewrite (p_fits b cap Hp (cap - fst (snd (alone b cap n))) (cap - snd (snd (alone b cap n))) _ _ _ _ E); [reflexivity|lia|lia].
Qed.

(** reading: from the world at [n], all that is written *)
Lemma alone_closed_out n m : (n <= m)%nat -> b_out b (fst (alone b cap n)) = false ->
  b_out b (fst (alone b cap m)) = false /\ fst (snd (alone b cap m)) = fst (snd (alone b cap n)).
Proof.
  intros H Ho. induction H as [|m H (IHo & IHs)]; [auto|]. rewrite alone_S. cbv zeta.
  pose proof (p_out b cap Hp cap cap _ IHo) as Qo.
  destruct (b_tick _ _ _ _) as (s, (o, e)). cbn [fst snd] in *. destruct Qo as (Q1 & ->). rewrite IHs. split; [exact Q1|lia].
Qed.
Lemma alone_closed_err n m : (n <= m)%nat -> b_err b (fst (alone b cap n)) = false ->
  b_err b (fst (alone b cap m)) = false /\ snd (snd (alone b cap m)) = snd (snd (alone b cap n)).
Proof.
  intros H Ho. induction H as [|m H (IHo & IHs)]; [auto|]. rewrite alone_S. cbv zeta.
  pose proof (p_err b cap Hp cap cap _ IHo) as Qo.
  destruct (b_tick _ _ _ _) as (s, (o, e)). cbn [fst snd] in *. destruct Qo as (Q1 & ->). rewrite IHs. split; [exact Q1|lia].
Qed.

Lemma read_out_alone fuel : forall n k (w : world S) f,
  (forall m, fits m) -> w_state w = fst (alone b cap k) -> w_now w = Z.of_nat k -> 0 <= w_out w -> w_err w = snd (snd (alone b cap k)) ->
  n + w_out w = fst (snd (alone b cap k)) ->
  b_out b (fst (alone b cap f)) = false -> (f <= k + fuel)%nat ->
  exists k', read_out b cap fuel n w = (Some (fst (snd (alone b cap f))), mkW (fst (alone b cap k')) (Z.of_nat k') 0 (snd (snd (alone b cap k'))) (w_signals w))
             /\ (k <= k')%nat /\ (k' <= Nat.max k f)%nat /\ b_out b (fst (alone b cap k')) = false.
Proof.
  induction fuel as [|fuel IH]; intros n k w f F Es En Eo Ee Ea Hf Hk; cbn [read_out]; rewrite Es.
  - destruct (alone_closed_out f k ltac:(lia) Hf) as (Q & Q2). rewrite Q. exists k. rewrite Ea, En, Ee, Q2. split; [reflexivity|]. split; [lia|]. split; [lia|exact Q].
  - destruct (b_out b (fst (alone b cap k))) eqn:Q.
    + assert (k < f)%nat as L.
      { destruct (Nat.lt_ge_cases k f) as [L|L]; [exact L|]. destruct (alone_closed_out f k L Hf) as (Q' & _). congruence. }
      pose proof (alone_room k) as A. pose proof (F (Datatypes.S k)) as Fk. unfold fits in Fk. rewrite (alone_S b cap k) in A, Fk. cbv zeta in A, Fk.
      destruct (b_tick b cap cap (fst (alone b cap k))) as (s, (o, e)) eqn:T. cbn [fst snd] in A, Fk.
      pose proof (p_room b cap Hp cap cap _ _ _ _ Hcap Hcap T) as R.
      assert (tick_out b cap w = mkW s (w_now w + 1) o (w_err w + e) (w_signals w)) as Et.
      { unfold tick_out. rewrite Es, Ee. rewrite (p_fits b cap Hp cap (cap - snd (snd (alone b cap k))) _ _ _ _ T); [reflexivity|lia|lia]. }
      rewrite Et. destruct (IH (n + w_out w) (Datatypes.S k) (mkW s (w_now w + 1) o (w_err w + e) (w_signals w)) f F) as (k' & E' & H1 & H2 & H3);
        try (rewrite alone_S; cbv zeta; rewrite T); cbn [w_state w_now w_out w_err w_signals fst snd]; try lia; try reflexivity; try exact Hf.
      exists k'. split; [exact E'|]. split; [lia|]. split; [lia|exact H3].
    + exists k. rewrite En, Ee, Ea. split; [|split; [lia|split; [lia|exact Q]]].
      f_equal. f_equal. destruct (Nat.le_ge_cases k f) as [L|L].
      * destruct (alone_closed_out k f L Q) as (_ & ->). reflexivity.
      * destruct (alone_closed_out f k L Hf) as (_ & ->). reflexivity.
Qed.
Lemma read_err_alone fuel : forall n k (w : world S) f,
  (forall m, fits m) -> w_state w = fst (alone b cap k) -> w_now w = Z.of_nat k -> 0 <= w_err w -> w_out w = 0 -> b_out b (fst (alone b cap k)) = false ->
  n + w_err w = snd (snd (alone b cap k)) ->
  b_err b (fst (alone b cap f)) = false -> (f <= k + fuel)%nat ->
  exists k', read_err b cap fuel n w = (Some (snd (snd (alone b cap f))), mkW (fst (alone b cap k')) (Z.of_nat k') 0 0 (w_signals w))
             /\ (k <= k')%nat /\ (k' <= Nat.max k f)%nat.
Proof.
  induction fuel as [|fuel IH]; intros n k w f F Es En Ee Eo Hc Ea Hf Hk; cbn [read_err]; rewrite Es.
  - destruct (alone_closed_err f k ltac:(lia) Hf) as (Q & Q2). rewrite Q. exists k. rewrite Ea, En, Eo, Q2. split; [reflexivity|]. lia.
  - destruct (b_err b (fst (alone b cap k))) eqn:Q.
    + assert (k < f)%nat as L.
      { destruct (Nat.lt_ge_cases k f) as [L|L]; [exact L|]. destruct (alone_closed_err f k L Hf) as (Q' & _). congruence. }
      pose proof (alone_closed_out k (Datatypes.S k) ltac:(lia) Hc) as (C1 & C2).
      pose proof (alone_room k) as A. pose proof (F (Datatypes.S k)) as Fk. unfold fits in Fk. rewrite (alone_S b cap k) in A, Fk, C1, C2. cbv zeta in A, Fk, C1, C2.
      destruct (b_tick b cap cap (fst (alone b cap k))) as (s, (o, e)) eqn:T. cbn [fst snd] in A, Fk, C1, C2.
      pose proof (p_room b cap Hp cap cap _ _ _ _ Hcap Hcap T) as R.
      assert (o = 0) as -> by lia.
      assert (tick_err b cap w = mkW s (w_now w + 1) 0 e (w_signals w)) as Et.
      { unfold tick_err. rewrite Es, Eo, Z.sub_0_r, T. reflexivity. }
      rewrite Et. destruct (IH (n + w_err w) (Datatypes.S k) (mkW s (w_now w + 1) 0 e (w_signals w)) f F) as (k' & E' & H1 & H2);
        try (rewrite alone_S; cbv zeta; rewrite T); cbn [w_state w_now w_out w_err w_signals fst snd]; try lia; try reflexivity; try exact Hf; try exact C1.
      exists k'. split; [exact E'|]. lia.
    + exists k. rewrite En, Eo, Ea. split; [|lia].
      f_equal. f_equal. destruct (Nat.le_ge_cases k f) as [L|L].
      * destruct (alone_closed_err k f L Q) as (_ & ->). reflexivity.
      * destruct (alone_closed_err f k L Hf) as (_ & ->). reflexivity.
Qed.

Lemma ended_output fuel level timeout kill_tree codes output d c f :
  (forall m, fits m) ->
  b_code b (fst (alone b cap d)) = Some c -> Z.of_nat d <= timeout -> (forall n, (n < d)%nat -> b_code b (fst (alone b cap n)) = None) ->
  b_out b (fst (alone b cap f)) = false -> b_err b (fst (alone b cap f)) = false -> (f <= d + fuel)%nat ->
  0 <= c \/ (f <= d)%nat ->
  exists r w, execute_cmd b cap fuel true level timeout output kill_tree codes = Done r w /\ w_signals w = [] /\
    answer codes output (Some c) (fst (snd (alone b cap f))) (snd (snd (alone b cap f))) r /\
    w_now w < Z.max (Z.of_nat f + 1) (Z.of_nat d + 2 * second).
Proof.
  intros F E Ht Hd Ho He Hfu Hc.
  assert (forall n, unread b cap n = alone b cap n) as U by (intros n; apply fits_unread, F).
  assert (b_code b (fst (unread b cap d)) = Some c) as E' by (rewrite U; exact E).
  destruct (wait_ended timeout d c E' Ht) as (m & Em & Ec & G).
  assert (d <= m)%nat as Hdm by (destruct (Nat.le_gt_cases d m) as [L|L]; [exact L|rewrite U, (Hd m L) in Ec; discriminate Ec]).
  specialize (G Hdm). cbv zeta in G. unfold SLEEP_TIME in G.
  unfold execute_cmd. cbn [negb]. rewrite Em. unfold collect. cbv zeta.
  assert (world_of b cap m [] = mkW (fst (alone b cap m)) (Z.of_nat m) (fst (snd (alone b cap m))) (snd (snd (alone b cap m))) []) as Ew
    by (unfold world_of; rewrite U; destruct (alone b cap m) as (s, (o, e)); reflexivity).
  rewrite Ew. cbn [w_out w_err].
  match goal with |- context [if ?x then _ else _] => destruct x eqn:R end; cycle 1.
  { apply orb_false_iff in R. destruct R as (-> & _).
    match goal with |- context [finish codes false (Some c) None None ?w] => destruct (finish_quiet codes (Some c) None None w) as (r & -> & A) end.
    eexists _, _. split; [reflexivity|]. split; [reflexivity|]. split; [apply A|]. cbn [w_now]. unfold second. lia. }
  destruct (c <? 0) eqn:C.
  - assert (f <= m)%nat as Lf by lia. destruct (alone_closed_out f m Lf Ho) as (_ & ->). destruct (alone_closed_err f m Lf He) as (_ & ->).
    match goal with |- context [finish codes output (Some c) (Some ?o) (Some ?e) ?w] => destruct (finish_answer codes output (Some c) o e w) as (r & -> & A) end.
    eexists _, _. split; [reflexivity|]. split; [reflexivity|]. split; [exact A|]. cbn [w_now]. unfold second. lia.
  - pose proof (alone_room m) as Rm.
    destruct (read_out_alone fuel 0 m (mkW (fst (alone b cap m)) (Z.of_nat m) (fst (snd (alone b cap m))) (snd (snd (alone b cap m))) []) f F) as (k & -> & K1 & K2 & K3);
      cbn [w_state w_now w_out w_err]; try reflexivity; try lia; try exact Ho.
    cbn [w_signals].
    pose proof (alone_room k) as Rk.
    destruct (read_err_alone fuel 0 k (mkW (fst (alone b cap k)) (Z.of_nat k) 0 (snd (snd (alone b cap k))) []) f F) as (k' & -> & K1' & K2');
      cbn [w_state w_now w_out w_err]; try reflexivity; try lia; try exact He; try exact K3.
    cbn [w_signals].
    match goal with |- context [finish codes output (Some c) (Some ?o) (Some ?e) ?w] => destruct (finish_answer codes output (Some c) o e w) as (r & -> & A) end.
    eexists _, _. split; [reflexivity|]. split; [reflexivity|]. split; [exact A|]. cbn [w_now]. unfold second. lia.
Qed.
End P.
