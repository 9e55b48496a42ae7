(** The calendar of the model counts days. *)
From Verif Require Import Base Text Strptime_Model Strptime_Spec.
From Coq Require Import ZifyBool ZifyNat.
Local Open Scope list_scope. Local Open Scope Z_scope.

Ltac comp := vm_compute; repeat split; intros; discriminate.
Lemma leap_iff y : is_leap y = true <-> leap y.
Proof.
  unfold is_leap, leap. rewrite andb_true_iff, orb_true_iff, negb_true_iff.
  rewrite <- !Z.mod_divide by lia. rewrite Z.eqb_eq, Z.eqb_neq, Z.eqb_eq. lia.
Qed.
Lemma months m : 1 <= m <= 12 ->
  m = 1 \/ m = 2 \/ m = 3 \/ m = 4 \/ m = 5 \/ m = 6 \/ m = 7 \/ m = 8 \/ m = 9 \/ m = 10 \/ m = 11 \/ m = 12.
Proof. lia. Qed.
Lemma month_has_iff y m n : month_has y m n <-> 1 <= m <= 12 /\ days_in_month y m = n.
Proof.
  unfold month_has, days_in_month. split.
  - intros [[H ->] | [[H ->] | [(-> & L & ->) | (-> & L & ->)]]].
    + cbn [In] in H. repeat destruct H as [<- | H]; easy.
    + cbn [In] in H. repeat destruct H as [<- | H]; easy.
    + apply leap_iff in L. rewrite L. split; [lia | reflexivity].
    + destruct (is_leap y) eqn:E; [now apply leap_iff in E |]. split; [lia | reflexivity].
  - intros [M E]. destruct (months m M) as [-> | [-> | [-> | [-> | [-> | [-> | [-> | [-> | [-> | [-> | [-> | ->]]]]]]]]]]];
      cbn in E; subst n; cbn [In]; try (left; split; [tauto | reflexivity]); try (right; left; split; [tauto | reflexivity]).
    right; right. destruct (is_leap y) eqn:L.
    + left. apply leap_iff in L. auto.
    + right. split; [reflexivity | split; [| reflexivity]]. intros C. apply leap_iff in C. congruence.
Qed.
Definition ord (d : date) : Z := ymd2ord (year d) (month d) (day d).
Definition valid (y m d : Z) : Prop := 1 <= m <= 12 /\ 1 <= d <= days_in_month y m.
Lemma is_date_iff d : is_date d <-> valid (year d) (month d) (day d).
Proof.
  unfold is_date, valid. split.
  - intros (n & H & D). apply month_has_iff in H. lia.
  - intros [M D]. exists (days_in_month (year d) (month d)). split; [apply month_has_iff; lia | exact D].
Qed.

Lemma div_step y k : 0 < k -> y / k = (y - 1) / k + (if y mod k =? 0 then 1 else 0).
Proof.
  intros K. pose proof (Z.div_mod y k ltac:(lia)) as E. pose proof (Z.mod_pos_bound y k K) as B.
  destruct (y mod k =? 0) eqn:X.
  - apply Z.eqb_eq in X. rewrite X in E.
    rewrite <- (Z.div_unique_pos (y - 1) k (y / k - 1) (k - 1)) by lia. lia.
  - apply Z.eqb_neq in X. rewrite <- (Z.div_unique_pos (y - 1) k (y / k) (y mod k - 1)) by lia. lia.
Qed.
Lemma year_step y : days_before_year (y + 1) = days_before_year y + 365 + (if is_leap y then 1 else 0).
Proof.
  unfold days_before_year, is_leap. replace (y + 1 - 1) with y by lia.
  rewrite (div_step y 4), (div_step y 100), (div_step y 400) by lia.
  assert (H1 : y mod 400 = 0 -> y mod 100 = 0).
  { rewrite !Z.mod_divide by lia. intros H. eapply Z.divide_trans; [| exact H]. now exists 4. }
  assert (H2 : y mod 100 = 0 -> y mod 4 = 0).
  { rewrite !Z.mod_divide by lia. intros H. eapply Z.divide_trans; [| exact H]. now exists 25. }
  revert H1 H2. generalize (y mod 400) (y mod 100) (y mod 4) ((y - 1) / 4) ((y - 1) / 100) ((y - 1) / 400).
  intros a b c d e f H1 H2.
  destruct (c =? 0) eqn:A, (b =? 0) eqn:B, (a =? 0) eqn:C; cbn [negb andb orb]; lia.
Qed.
Lemma month_step y m : 1 <= m < 12 -> days_before_month y (m + 1) = days_before_month y m + days_in_month y m.
Proof.
  intros M. unfold days_before_month, days_in_month.
  destruct (months m ltac:(lia)) as [-> | [-> | [-> | [-> | [-> | [-> | [-> | [-> | [-> | [-> | [-> | ->]]]]]]]]]]];
    try (exfalso; lia); destruct (is_leap y); reflexivity.
Qed.
Lemma december y : days_before_month y 12 + days_in_month y 12 = 365 + (if is_leap y then 1 else 0).
Proof. unfold days_before_month, days_in_month. destruct (is_leap y); reflexivity. Qed.
Lemma january y : days_before_month y 1 = 0.
Proof. unfold days_before_month. destruct (is_leap y); reflexivity. Qed.

Lemma ord_step d d' : day_after d d' -> ord d' = ord d + 1.
Proof.
  intros (V & V' & [-> | [(H & M & ->) | (H & M & ->)]]); unfold ord, ymd2ord; cbn [year month day].
  - lia.
  - apply month_has_iff in H as [M1 H]. rewrite month_step by lia. lia.
  - apply month_has_iff in H as [M1 H]. rewrite M in *. rewrite year_step, january.
    pose proof (december (year d)). lia.
Qed.
Lemma ord_of_days d n : epoch_days d n -> is_date d /\ ord d = n + 719163.
Proof.
  induction 1 as [| d d' n _ IH A | d d' n _ IH A].
  - split; [apply is_date_iff; comp | reflexivity].
  - split; [apply A |]. apply ord_step in A. lia.
  - split; [apply A |]. apply ord_step in A. lia.
Qed.

(** ** From the number of a day to its date *)
Definition month_part (lp : bool) (n : Z) : Z * Z :=
  let month := (n + 50) / 32 in
  let before m := nth (Z.to_nat m) [-1; 0; 31; 59; 90; 120; 151; 181; 212; 243; 273; 304; 334] 0
                  + (if (2 <? m) && lp then 1 else 0) in
  let month := if n <? before month then month - 1 else month in
  (month, n - before month + 1).
Definition month_ok (lp : bool) (n : Z) : bool :=
  let '(m, d) := month_part lp n in
  (1 <=? m) && (m <=? 12) && (1 <=? d)
  && (d <=? (if (m =? 2) && lp then 29 else nth (Z.to_nat m) [-1; 31; 28; 31; 30; 31; 30; 31; 31; 30; 31; 30; 31] 0))
  && (nth (Z.to_nat m) [-1; 0; 31; 59; 90; 120; 151; 181; 212; 243; 273; 304; 334] 0 + (if (2 <? m) && lp then 1 else 0) + d =? n + 1).
Lemma month_part_all : forallb (fun k => month_ok true (Z.of_nat k) && month_ok false (Z.of_nat k)) (seq 0 365) = true.
Proof. vm_compute. reflexivity. Qed.
Lemma month_part_ok lp n : 0 <= n < 365 -> month_ok lp n = true.
Proof.
  intros R. pose proof month_part_all as H. rewrite forallb_forall in H.
  specialize (H (Z.to_nat n)). rewrite in_seq in H. specialize (H ltac:(lia)).
  rewrite Z2Nat.id in H by lia. apply andb_true_iff in H as [A B]. now destruct lp.
Qed.
Lemma ord2ymd_ok n : let '(y, m, d) := ord2ymd n in valid y m d /\ ymd2ord y m d = n.
Proof.
  unfold ord2ymd. set (N := n - 1).
  set (a := N / 146097). set (r := N mod 146097).
  set (b := r / 36524). set (r1 := r mod 36524).
  set (c := r1 / 1461). set (r2 := r1 mod 1461).
  set (e := r2 / 365). set (k := r2 mod 365).
  assert (EN : N = 146097 * a + r /\ 0 <= r < 146097) by (split; [apply Z.div_mod; lia | apply Z.mod_pos_bound; lia]).
  assert (ER : r = 36524 * b + r1 /\ 0 <= r1 < 36524) by (split; [apply Z.div_mod; lia | apply Z.mod_pos_bound; lia]).
  assert (ER1 : r1 = 1461 * c + r2 /\ 0 <= r2 < 1461) by (split; [apply Z.div_mod; lia | apply Z.mod_pos_bound; lia]).
  assert (ER2 : r2 = 365 * e + k /\ 0 <= k < 365) by (split; [apply Z.div_mod; lia | apply Z.mod_pos_bound; lia]).
  clearbody a r b r1 c r2 e k.
  assert (Bb : 0 <= b <= 4) by lia. assert (Bc : 0 <= c <= 24) by lia. assert (Be : 0 <= e <= 4) by lia.
  assert (DBY : forall a b c e, 0 <= b <= 3 -> 0 <= c <= 24 -> 0 <= e <= 3 ->
      days_before_year (a * 400 + 1 + b * 100 + c * 4 + e) = 146097 * a + 36524 * b + 1461 * c + 365 * e).
  { clear. intros a b c e Hb Hc He. unfold days_before_year. Z.to_euclidean_division_equations. lia. }
  assert (LP : forall a b c e, 0 <= b <= 3 -> 0 <= c <= 24 -> 0 <= e <= 3 ->
      is_leap (a * 400 + 1 + b * 100 + c * 4 + e) = ((e =? 3) && (negb (c =? 24) || (b =? 3)))).
  { clear. intros a b c e Hb Hc He. unfold is_leap.
    destruct (e =? 3) eqn:E3, (c =? 24) eqn:E24, (b =? 3) eqn:Eb; cbn [negb andb orb];
      destruct ((a * 400 + 1 + b * 100 + c * 4 + e) mod 4 =? 0) eqn:A;
      destruct ((a * 400 + 1 + b * 100 + c * 4 + e) mod 100 =? 0) eqn:B;
      destruct ((a * 400 + 1 + b * 100 + c * 4 + e) mod 400 =? 0) eqn:C; cbn [negb andb orb]; try reflexivity;
      exfalso; Z.to_euclidean_division_equations; lia. }
  destruct ((e =? 4) || (b =? 4)) eqn:X.
  - assert (Y : exists b' c', a * 400 + 1 + b * 100 + c * 4 + e - 1 = a * 400 + 1 + b' * 100 + c' * 4 + 3
              /\ 0 <= b' <= 3 /\ 0 <= c' <= 24 /\ (c' = 24 -> b' = 3)
              /\ N = 146097 * a + 36524 * b' + 1461 * c' + 365 * 3 + 365).
    { destruct (b =? 4) eqn:B4.
      - exists 3, 24. lia.
      - exists b, c. lia. }
    destruct Y as (b' & c' & EY & Hb & Hc & Hbc & ENN). rewrite EY.
    assert (L : is_leap (a * 400 + 1 + b' * 100 + c' * 4 + 3) = true) by (rewrite LP by lia; lia).
    split.
    + unfold valid, days_in_month. cbn [Z.eqb Pos.eqb andb]. comp.
    + unfold ymd2ord, days_before_month. rewrite DBY, L by lia. change (nth _ _ _ + _) with 335. lia.
  - assert (Hb : b <= 3) by lia. assert (He : e <= 3) by lia.
    cbv zeta.
    set (lp := (e =? 3) && (negb (c =? 24) || (b =? 3))) in *.
    pose proof (month_part_ok lp k ltac:(lia)) as M. unfold month_ok, month_part in M.
    set (m := if k <? _ then _ else _) in *.
    assert (L : is_leap (a * 400 + 1 + b * 100 + c * 4 + e) = lp) by (apply LP; lia).
    unfold valid, days_in_month, ymd2ord, days_before_month. rewrite L, DBY by lia.
    revert M. set (q := nth (Z.to_nat m) [-1; 0; 31; 59; 90; 120; 151; 181; 212; 243; 273; 304; 334] 0).
    set (q' := nth (Z.to_nat m) [-1; 31; 28; 31; 30; 31; 30; 31; 31; 30; 31; 30; 31] 0). clearbody m q q' lp.
    intros M. repeat rewrite andb_true_iff in M. destruct M as ((((M1 & M2) & M3) & M4) & M5).
    apply Z.leb_le in M1, M2, M3, M4. apply Z.eqb_eq in M5. repeat split; lia.
Qed.

(** ** The date of a number is the only one *)
Lemma dbm_bounds y m : 1 <= m <= 12 -> 0 <= days_before_month y m /\ days_before_month y m + days_in_month y m <= 365 + (if is_leap y then 1 else 0).
Proof.
  intros M. unfold days_before_month, days_in_month.
  destruct (months m M) as [-> | [-> | [-> | [-> | [-> | [-> | [-> | [-> | [-> | [-> | [-> | ->]]]]]]]]]]];
    try (exfalso; lia); destruct (is_leap y); vm_compute; repeat split; intros; discriminate.
Qed.
Lemma dbm_lt y m m' : 1 <= m -> m < m' -> m' <= 12 -> days_before_month y m + days_in_month y m <= days_before_month y m'.
Proof.
  intros M L M'. unfold days_before_month, days_in_month.
  destruct (months m ltac:(lia)) as [-> | [-> | [-> | [-> | [-> | [-> | [-> | [-> | [-> | [-> | [-> | ->]]]]]]]]]]];
  destruct (months m' ltac:(lia)) as [-> | [-> | [-> | [-> | [-> | [-> | [-> | [-> | [-> | [-> | [-> | ->]]]]]]]]]]];
    try (exfalso; lia); destruct (is_leap y); vm_compute; repeat split; intros; discriminate.
Qed.
Lemma dby_lt y y' : y < y' -> days_before_year (y + 1) <= days_before_year y'.
Proof. intros L. unfold days_before_year. Z.to_euclidean_division_equations. lia. Qed.
Lemma ymd_year y m d : valid y m d -> days_before_year y < ymd2ord y m d <= days_before_year (y + 1).
Proof.
  intros [M D]. pose proof (dbm_bounds y m M). rewrite year_step. unfold ymd2ord. lia.
Qed.
Lemma ymd_lt y m d y' m' d' : valid y m d -> valid y' m' d' ->
  y < y' \/ (y = y' /\ (m < m' \/ (m = m' /\ d < d'))) -> ymd2ord y m d < ymd2ord y' m' d'.
Proof.
  intros V V' [L | [-> [L | [-> L]]]].
  - pose proof (ymd_year _ _ _ V). pose proof (ymd_year _ _ _ V'). pose proof (dby_lt _ _ L). lia.
  - unfold valid in *. pose proof (dbm_lt y' m m' ltac:(lia) L ltac:(lia)). unfold ymd2ord. lia.
  - unfold ymd2ord. lia.
Qed.
Lemma ymd_inj y m d y' m' d' : valid y m d -> valid y' m' d' -> ymd2ord y m d = ymd2ord y' m' d' -> y = y' /\ m = m' /\ d = d'.
Proof.
  intros V V' E.
  destruct (Z.lt_trichotomy y y') as [L | [-> | L]].
  - pose proof (ymd_lt _ _ _ _ _ _ V V' (or_introl L)). lia.
  - destruct (Z.lt_trichotomy m m') as [L | [-> | L]].
    + pose proof (ymd_lt _ _ _ _ _ _ V V' ltac:(right; split; [reflexivity | left; exact L])). lia.
    + unfold ymd2ord in E. lia.
    + pose proof (ymd_lt _ _ _ _ _ _ V' V ltac:(right; split; [reflexivity | left; exact L])). lia.
  - pose proof (ymd_lt _ _ _ _ _ _ V' V (or_introl L)). lia.
Qed.
Lemma ord_inj d d' : is_date d -> is_date d' -> ord d = ord d' -> d = d'.
Proof.
  intros V V' E. apply is_date_iff in V, V'. destruct (ymd_inj _ _ _ _ _ _ V V' E) as (A & B & C).
  destruct d, d'. cbn in *. congruence.
Qed.
Lemma ord2ymd_ord y m d : valid y m d -> ord2ymd (ymd2ord y m d) = (y, m, d).
Proof.
  intros V. pose proof (ord2ymd_ok (ymd2ord y m d)) as H. destruct (ord2ymd (ymd2ord y m d)) as [[y' m'] d'].
  destruct H as [V' E]. destruct (ymd_inj _ _ _ _ _ _ V' V E) as (-> & -> & ->). reflexivity.
Qed.

(** ** Every date is reached by counting *)
Definition date_no (n : Z) : date := let '(y, m, d) := ord2ymd n in mkD y m d.
Lemma date_no_ok n : is_date (date_no n) /\ ord (date_no n) = n.
Proof.
  unfold date_no. pose proof (ord2ymd_ok n) as H. destruct (ord2ymd n) as [[y m] d]. destruct H as [V E].
  split; [apply is_date_iff; exact V | exact E].
Qed.
Lemma has_next d : is_date d -> exists d', day_after d d'.
Proof.
  intros V. pose proof V as W. apply is_date_iff in W as [M D].
  destruct (Z.eq_dec (day d) (days_in_month (year d) (month d))) as [E | NE].
  - destruct (Z.eq_dec (month d) 12) as [E12 | N12].
    + exists (mkD (year d + 1) 1 1). split; [exact V | split].
      * apply is_date_iff. unfold valid, days_in_month. comp.
      * right; right. repeat split; [apply month_has_iff; lia | exact E12].
    + exists (mkD (year d) (month d + 1) 1). split; [exact V | split].
      * apply is_date_iff. unfold valid. cbn [year month day]. split; [lia |].
        pose proof (month_step (year d) (month d) ltac:(lia)).
        unfold days_in_month. destruct (months (month d + 1) ltac:(lia)) as [-> | [-> | [-> | [-> | [-> | [-> | [-> | [-> | [-> | [-> | [-> | ->]]]]]]]]]]];
          destruct (is_leap (year d)); vm_compute; repeat split; intros; discriminate.
      * right; left. repeat split; [apply month_has_iff; lia | lia].
  - exists (mkD (year d) (month d) (day d + 1)). split; [exact V | split].
    + apply is_date_iff. unfold valid. cbn [year month day]. lia.
    + left. reflexivity.
Qed.
Lemma date_no_next n : day_after (date_no n) (date_no (n + 1)).
Proof.
  destruct (date_no_ok n) as [V E]. destruct (has_next _ V) as (d' & A).
  enough (d' = date_no (n + 1)) as <- by exact A.
  destruct (date_no_ok (n + 1)) as [V' E']. apply ord_inj; [apply A | exact V' |].
  apply ord_step in A. lia.
Qed.
Lemma date_no_days k : epoch_days (date_no (719163 + k)) k.
Proof.
  destruct (Z_le_gt_dec 0 k) as [P | N].
  - revert k P. apply natlike_ind.
    + apply ed_epoch.
    + intros k P IH. replace (Z.succ k) with (k + 1) by lia. eapply ed_next; [exact IH |].
      rewrite Z.add_assoc. apply date_no_next.
  - replace k with (- (- k)) by lia. assert (P : 0 <= - k) by lia. revert P. generalize (- k). clear.
    apply natlike_ind.
    + apply ed_epoch.
    + intros k P IH. replace (- Z.succ k) with (- k - 1) by lia. eapply ed_prev; [exact IH |].
      replace (719163 + - k) with (719163 + (- k - 1) + 1) by lia. apply date_no_next.
Qed.
Lemma days_of_ord d : is_date d -> epoch_days d (ord d - 719163).
Proof.
  intros V. pose proof (date_no_days (ord d - 719163)) as H.
  replace (719163 + (ord d - 719163)) with (ord d) in H by lia.
  destruct (date_no_ok (ord d)) as [V' E]. now rewrite (ord_inj _ _ V V' (eq_sym E)) at 1.
Qed.
Theorem epoch_days_iff d n : epoch_days d n <-> is_date d /\ ord d = n + 719163.
Proof.
  split; [apply ord_of_days |]. intros [V E]. replace n with (ord d - 719163) by lia. now apply days_of_ord.
Qed.
