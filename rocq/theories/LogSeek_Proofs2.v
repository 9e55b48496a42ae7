(** If all lines have a time and the same length, the search is exact. *)
From Verif Require Import Base Text LogFile_Model LogFile_Proofs LogFile_Proofs2 LogSeek_Model LogSeek_Spec LogSeek_Proofs.
From Coq Require Import Lia List ZifyBool ZifyNat.
Local Open Scope nat_scope.
Import ListNotations.

Lemma concat_len : forall L (ls : list bytes), (forall x, In x ls -> length x = L) -> length (concat ls) = length ls * L.
Proof.
  intros L. induction ls as [|x ls IH]; intros H; [reflexivity|]. cbn. rewrite app_length, IH, (H x); [lia|now left|]. intros y Y. apply H. now right.
Qed.

Section Exact.
Context (lines : list bytes) (L : nat) (dt : bytes -> stamp) (date : Z) (T : nat -> Z).
Hypothesis L2 : 2 <= L.
Hypothesis Hlen : forall x, In x lines -> length x = L.
Hypothesis Hlf : forall x, In x lines -> exists y, x = y ++ [LF] /\ ~ In LF y.
Hypothesis Hdt : forall k x, nth_error lines k = Some x -> dt x = Match (Some (T k)).
Hypothesis mono : forall i j, i <= j < length lines -> (T i <= T j)%Z.
Notation d := (concat lines).
Notation n := (length lines).

Lemma d_len : length d = n * L.
Proof. now apply concat_len. Qed.
Lemma skip_lines : forall (ls : list bytes) k, (forall x, In x ls -> length x = L) -> skipn (k * L) (concat ls) = concat (skipn k ls).
Proof.
  induction ls as [|x ls IH]; intros k H; [cbn; now rewrite !skipn_nil|]. destruct k as [|k]; [reflexivity|].
  cbn [concat skipn]. cbn [Nat.mul]. rewrite skipn_add, skipn_app.
  pose proof (H x (or_introl eq_refl)) as Lx. rewrite Lx, Nat.sub_diag, (skipn_all2 x) by lia. cbn [skipn app].
  apply IH. intros y Y. apply H. now right.
Qed.
Lemma raw_line_lf : forall y z, ~ In LF y -> raw_line (y ++ LF :: z) = y ++ [LF].
Proof.
  induction y as [|c y IH]; intros z N; [reflexivity|]. cbn [raw_line app]. destruct (Ascii.eqb_spec c LF) as [->|]; [destruct N; now left|].
  rewrite IH; [reflexivity|]. intros I. apply N. now right.
Qed.
Lemma read_at : forall k r, k < n -> r < L -> exists x, nth_error lines k = Some x /\ read_raw d (k * L + r) = skipn r x /\ length x = L.
Proof.
  intros k r Hk Hr. destruct (nth_error lines k) as [x|] eqn:E; [|apply nth_error_None in E; lia].
  exists x. split; [reflexivity|]. pose proof (nth_error_In _ _ E) as I. destruct (Hlf x I) as (y & Ey & Ny). pose proof (Hlen x I) as Lx.
  split; [|exact Lx]. unfold read_raw. rewrite skipn_add, skip_lines by exact Hlen.
  assert (S : skipn k lines = x :: skipn (S k) lines).
  { clear - E. revert k E. induction lines as [|z ls IH]; intros [|k] E; cbn in *; try discriminate; [now injection E as ->|]. now apply IH. }
  rewrite S. cbn [concat]. rewrite Ey in *. rewrite app_length in Lx. cbn in Lx.
  rewrite <- app_assoc, skipn_app_le by lia. cbn [app]. rewrite raw_line_lf.
  - rewrite skipn_app_le by lia. reflexivity.
  - intros X. apply Ny. rewrite <- (firstn_skipn r y). apply in_or_app. now right.
Qed.
Lemma seek_in : forall k r, k < n -> r < L -> 0 < k * L + r -> seek d (k * L + r) = S k * L.
Proof.
  intros k r Hk Hr P. unfold seek. destruct (Nat.eqb_spec (k * L + r) 0); [lia|].
  destruct (read_at k r Hk Hr) as (x & _ & -> & Lx). rewrite skipn_length, Lx. cbn. lia.
Qed.
Lemma read_end : forall p, n * L <= p -> read_raw d p = [].
Proof. intros p H. unfold read_raw. rewrite skipn_all2; [reflexivity|]. rewrite d_len. exact H. Qed.

Lemma narrow_at : forall a b s, s < n ->
  narrow d dt date a b (s * L) =
    if (date <=? T s)%Z then (s * L, a, if s * L <? b then s * L else b) else (S s * L, if a <? S s * L then S s * L else a, b).
Proof.
  intros a b s Hs. destruct (read_at s 0 Hs) as (x & E & R & Lx); [lia|]. rewrite Nat.add_0_r in R. cbn [skipn] in R.
  unfold narrow. cbn [probe]. rewrite R. destruct x as [|c x]; [cbn in Lx; lia|].
  rewrite (Hdt s _ E). destruct (date <=? T s)%Z.
  - destruct (Nat.eqb_spec (s * L) b); reflexivity.
  - rewrite Lx. replace (s * L + L) with (S s * L) by (cbn; lia). reflexivity.
Qed.
Lemma narrow_end : forall a b s, n <= s -> narrow d dt date a b (s * L) = (s * L, a, b).
Proof. intros a b s H. unfold narrow. cbn [probe]. rewrite read_end; [reflexivity|]. nia. Qed.

(** where the middle leads *)
Lemma mid_seek : forall a b, a < b <= n -> exists s, seek d (mid (a * L) (b * L) - 2) = s * L /\ a <= s <= b /\ (a + 2 <= b \/ L <= 3 -> s < b).
Proof.
  intros a b H. unfold mid.
  set (h := (b * L - a * L) / 2).
  assert (Hh : 2 * h <= b * L - a * L < 2 * h + 2).
  { unfold h. pose proof (Nat.div_mod (b * L - a * L) 2). pose proof (Nat.mod_upper_bound (b * L - a * L) 2). lia. }
  assert (Hb : b * L - a * L = (b - a) * L) by (rewrite Nat.mul_sub_distr_r; reflexivity).
  rewrite Hb in Hh. clearbody h.
  destruct (Nat.eq_dec (a * L + h - 2) 0) as [Z|NZ].
  - exists 0. unfold seek. rewrite Z. cbn [Nat.eqb]. split; [reflexivity|].
    assert (a = 0). { destruct a; [reflexivity|]. assert (1 * L <= (b - S a) * L) by (apply Nat.mul_le_mono_r; lia). exfalso. cbn [Nat.mul] in Z. nia. }
    lia.
  - set (o := a * L + h - 2) in *.
    pose proof (Nat.div_mod o L) as D. pose proof (Nat.mod_upper_bound o L) as Rm.
    assert (Lo : o < b * L).
    { assert (a * L + (b - a) * L = b * L) by (rewrite <- Nat.mul_add_distr_r; f_equal; lia). nia. }
    assert (Q : o / L < b) by (apply Nat.div_lt_upper_bound; lia).
    exists (S (o / L)). split; [|split; [split|]].
    + replace o with (o / L * L + o mod L) at 1 by lia. apply seek_in; lia.
    + assert (X : a - 1 <= o / L); [|revert X; clear; generalize (o / L); intros; lia]. apply Nat.div_le_lower_bound; [clear - L2; lia|]. clear - L2. unfold o.
      rewrite Nat.mul_comm, Nat.mul_sub_distr_r. lia.
    + exact Q.
    + intros K. assert (X : o / L < b - 1); [|revert X; clear; generalize (o / L); intros; lia]. apply Nat.div_lt_upper_bound; [clear - L2; lia|]. unfold o.
      destruct (Nat.le_gt_cases (a + 2) b) as [K2|K2].
      2:{ assert (b = S a) by lia. subst b. replace (S a - a) with 1 in Hh by lia. replace (S a - 1) with a by lia.
          rewrite (Nat.mul_comm L). unfold o in NZ. lia. }
      assert (X : (b - 1) * L = a * L + (b - a - 1) * L) by (rewrite <- Nat.mul_add_distr_r; f_equal; lia).
      assert (Y : (b - a) * L = (b - a - 1) * L + L) by (replace (b - a) with (S (b - a - 1)) at 1 by lia; cbn; lia).
      assert (Z : 1 * L <= (b - a - 1) * L) by (apply Nat.mul_le_mono_r; lia).
      rewrite (Nat.mul_comm L). lia.
Qed.
Lemma back_seek : forall a, a < n -> 3 <= L \/ a = 0 -> seek d (a * L - 2) = a * L.
Proof.
  intros a H X. destruct a as [|a]; [reflexivity|]. destruct X as [X|X]; [|discriminate].
  replace (S a * L - 2) with (a * L + (L - 2)) by (cbn; lia). rewrite seek_in; [reflexivity|lia|lia|lia].
Qed.

(** the lines before [a] are older, those from [b] on are not *)
Definition bounds (a b : nat) : Prop := a <= b <= n /\ (forall k, k < a -> (T k < date)%Z) /\ (forall k, b <= k < n -> (date <= T k)%Z).
Definition answer (p : nat) : Prop := exists k, p = k * L /\ bounds k k.
(** the states of the search *)
Inductive State : search -> Prop :=
| S_end a x y z : bounds a a -> State (mkSearch (a * L) (a * L) x y z)
| S_mid a b lp : bounds a b -> (lp = a \/ lp = b) -> State (mkSearch (a * L) (b * L) None (Some (lp * L)) 3)
| S_start b : bounds 0 b -> State (mkSearch 0 (b * L) (Some 0) None 3)
| S_try a b : bounds a b -> b = S a -> 3 <= L -> State (mkSearch (a * L) (b * L) (Some (a * L)) (Some (a * L)) 2).

Lemma mulL : forall x y, x * L = y * L <-> x = y.
Proof. intros. nia. Qed.
Lemma mulL_lt : forall x y, x * L < y * L <-> x < y.
Proof. intros. nia. Qed.
Lemma ltbL : forall x y, (x * L <? y * L) = (x <? y).
Proof. intros. apply eq_true_iff_eq. rewrite !Nat.ltb_lt. apply mulL_lt. Qed.
Lemma eqbL : forall x y, eqb (Some (x * L)) (Some (y * L)) = (x =? y).
Proof.
  intros. apply eq_true_iff_eq. rewrite Nat.eqb_eq. rewrite (eqb_eq (EqB := _)). split; [|now intros ->]. intros H. apply mulL. congruence.
Qed.
Lemma bounds_old : forall a b s, bounds a b -> a <= s < b -> (T s < date)%Z -> bounds (S s) b.
Proof.
  intros a b s (H1 & H2 & H3) Hs Ht. split; [lia|]. split; [|exact H3]. intros k Hk.
  assert (T k <= T s)%Z by (apply mono; lia). lia.
Qed.
Lemma bounds_new : forall a b s, bounds a b -> a <= s < b -> (date <= T s)%Z -> bounds a s.
Proof.
  intros a b s (H1 & H2 & H3) Hs Ht. split; [lia|]. split; [exact H2|]. intros k Hk.
  assert (T s <= T k)%Z by (apply mono; lia). lia.
Qed.

Lemma turn_state : forall s, State s -> match turn d dt date s with inl s' => State s' | inr p => answer p end.
Proof.
  intros s H. unfold turn. destruct H as [a x y z B|a b lp B Hl|b B|a b B E L3]; cbn [minp maxp try_pos last_pos movecntr].
  - rewrite Nat.ltb_irrefl. now exists a.
  - rewrite ltbL. destruct (Nat.ltb_spec a b) as [Lt|Ge].
    2:{ exists a. split; [reflexivity|]. assert (a = b) as <- by (destruct B; lia). exact B. }
    fold (mid (a * L) (b * L)). destruct (mid_seek a b) as (s & -> & Hs & Hk); [destruct B; lia|].
    destruct (Nat.eq_dec s b) as [->|Nb].
    + (* stuck *)
      assert (Eb : b = S a) by lia.
      assert (N : narrow d dt date (a * L) (b * L) (b * L) = (b * L, a * L, b * L)).
      { destruct (Nat.lt_ge_cases b n) as [Lb|Gb]; [|now apply narrow_end].
        rewrite narrow_at by assumption. destruct B as (_ & _ & B3). 
        replace (date <=? T b)%Z with true by (symmetry; apply Z.leb_le; apply B3; lia). now rewrite Nat.ltb_irrefl. }
      rewrite N. rewrite !eqbL. destruct (Nat.eqb_spec b lp) as [<-|Nl].
      * cbn [Nat.sub Nat.eqb]. destruct (Nat.eqb_spec a b) as [|_]; [lia|]. cbn [negb]. 
        destruct (Nat.le_gt_cases 3 L) as [L3|L3]; [now apply S_try|].
        lia.
      * apply S_mid; [exact B|now right].
    + rewrite narrow_at by (destruct B; lia).
      destruct (Z.leb_spec date (T s)) as [Ht|Ht].
      * rewrite ltbL. destruct (Nat.ltb_spec s b) as [_|]; [|lia]. rewrite !eqbL.
        pose proof (bounds_new a b s B ltac:(lia) Ht) as B'.
        destruct (Nat.eqb_spec s lp) as [<-|Nl].
        -- cbn [Nat.sub Nat.eqb]. destruct Hl as [->|]; [|lia]. rewrite Nat.eqb_refl. cbn [negb]. exists a. auto.
        -- apply S_mid; [exact B'|now right].
      * rewrite ltbL. destruct (Nat.ltb_spec a (S s)) as [_|]; [|lia]. rewrite !eqbL.
        pose proof (bounds_old a b s B ltac:(lia) Ht) as B'.
        destruct (Nat.eqb_spec (S s) lp) as [El|Nl].
        -- cbn [Nat.sub Nat.eqb]. destruct Hl as [->| ->]; [lia|]. cbn [negb]. exists b. rewrite El in *. auto.
        -- apply S_mid; [exact B'|now left].
  - destruct (Nat.ltb_spec 0 (b * L)) as [Lt|Ge].
    2:{ exists 0. split; [reflexivity|]. assert (b = 0) by nia. subst b. exact B. }
    change (seek d (0 - 2)) with (0 * L). rewrite narrow_at by (destruct B; nia).
    assert (P : 0 < b) by nia.
    destruct (Z.leb_spec date (T 0)) as [Ht|Ht].
    + rewrite ltbL. destruct (Nat.ltb_spec 0 b) as [_|]; [|lia]. cbn [eqb].
      change (eqb (Some (0 * L)) None) with false. cbn iota. apply (S_mid 0 0 0); [|now left].
      apply (bounds_new 0 b 0 B); auto.
    + replace (0 <? 1 * L) with true by (symmetry; apply Nat.ltb_lt; lia). change (eqb (Some (1 * L)) None) with false. cbn iota.
      apply (S_mid 1 b 1); [|now left]. apply (bounds_old 0 b 0 B); auto.
  - rewrite ltbL. destruct (Nat.ltb_spec a b) as [_|]; [|lia]. rewrite back_seek by (destruct B; lia).
    rewrite narrow_at by (destruct B; lia).
    destruct (Z.leb_spec date (T a)) as [Ht|Ht].
    + rewrite ltbL. destruct (Nat.ltb_spec a b) as [_|]; [|lia]. rewrite !eqbL, Nat.eqb_refl. cbn [Nat.sub Nat.eqb negb].
      exists a. split; [reflexivity|]. apply (bounds_new a b a B); auto. lia.
    + rewrite ltbL. destruct (Nat.ltb_spec a (S a)) as [_|]; [|lia]. rewrite !eqbL.
      destruct (Nat.eqb_spec (S a) a) as [|_]; [lia|]. subst b. apply S_end. apply (bounds_old a (S a) a B); auto.
Qed.
Lemma loop_state : forall fuel s p, State s -> loop d dt date fuel s = Some p -> answer p.
Proof.
  induction fuel as [|fuel IH]; intros s p S H; [discriminate|]. cbn [loop] in H. pose proof (turn_state s S) as X.
  destruct (turn d dt date s); [eauto|]. injection H as <-. exact X.
Qed.
Lemma start_state : State (mkSearch 0 (length d) (Some 0) None 3).
Proof. rewrite d_len. apply S_start. split; [lia|]. split; [lia|]. intros k K. lia. Qed.
End Exact.
