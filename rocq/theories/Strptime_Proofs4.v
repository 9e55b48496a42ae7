(** From the fields to a time. *)
From Verif Require Import Base Text Strptime_Model Strptime_Spec Strptime_Proofs Strptime_Proofs2 Strptime_Proofs3.
From Coq Require Import ZifyBool ZifyNat Permutation.
Local Open Scope string_scope. Local Open Scope list_scope. Local Open Scope Z_scope.

(** a date without zone of the model, and the time at which a clock at Greenwich shows it *)
Definition day0 : Z := 719163 * 86400.
Definition local (w : world) (t : Z) : res Z := w_mktime w (t + day0).
Definition now_is (w : world) (today : date) (n : Z) : Prop := (exists c, shows today c n) /\ w_now w = n + day0.
Definition answer (w : world) (tz : option Z) (t : Z) : res Z :=
  match tz with Some o => Ok (t - 60 * o) | None => local w t end.
Definition tz_minutes (tz : option Z) : Z := match tz with Some o => o | None => 0 end.

Lemma shows_naive d c t : shows d c t ->
  is_date d /\ is_clock c /\ naive (year d) (month d) (day d) (hour c) (minute c) (second c) = t + day0.
Proof.
  intros (n & E & C & ->). apply epoch_days_iff in E as [V O]. repeat split; try apply V; try apply C.
  unfold naive, day0, clock_seconds. unfold ord in O. rewrite O. lia.
Qed.
Lemma shows_exists d c : is_date d -> is_clock c -> exists t, shows d c t.
Proof. intros V C. eexists. exists (ord d - 719163). split; [now apply days_of_ord | split; [exact C | reflexivity]]. Qed.
Lemma shows_ord d c t : shows d c t -> t + day0 = ord d * 86400 + clock_seconds c /\ 0 <= clock_seconds c < 86400.
Proof.
  intros H. pose proof H as H'. apply shows_naive in H as (V & C & E). rewrite <- E. unfold naive, ord, clock_seconds.
  unfold is_clock in C. lia.
Qed.
Lemma shows_fun d c t t' : shows d c t -> shows d c t' -> t = t'.
Proof. intros A B. apply shows_ord in A, B. lia. Qed.
Lemma mk_ok d c : is_date d -> is_clock c -> 1 <= year d <= 9999 ->
  mk_datetime (year d) (month d) (day d) (hour c) (minute c) (second c) = Ok (naive (year d) (month d) (day d) (hour c) (minute c) (second c)).
Proof.
  intros V C Y. apply is_date_iff in V as [M D]. unfold is_clock in C. unfold mk_datetime.
  destruct (_ && _) eqn:E; [reflexivity |]. lia.
Qed.
Lemma mk_inv y m d h mi s t : mk_datetime y m d h mi s = Ok t ->
  is_date (mkD y m d) /\ is_clock (mkC h mi s) /\ 1 <= y <= 9999 /\ shows (mkD y m d) (mkC h mi s) (t - day0).
Proof.
  unfold mk_datetime. destruct (_ && _) eqn:E; [| discriminate]. intros [= <-].
  assert (V : is_date (mkD y m d)) by (apply is_date_iff; unfold valid; cbn [year month day]; lia).
  assert (C : is_clock (mkC h mi s)) by (unfold is_clock; cbn [hour minute second]; lia).
  repeat split; try apply C; try exact V; try lia.
  exists (ord (mkD y m d) - 719163). split; [now apply days_of_ord | split; [exact C |]].
  unfold naive, ord, clock_seconds, day0. cbn [year month day hour minute second]. lia.
Qed.
Lemma mk_bad y m d h mi s : ~ (is_date (mkD y m d) /\ is_clock (mkC h mi s)) -> mk_datetime y m d h mi s = Err ValueErr.
Proof.
  intros N. destruct (mk_datetime y m d h mi s) as [t | e] eqn:E.
  - apply mk_inv in E. tauto.
  - unfold mk_datetime in E. destruct (_ && _); congruence.
Qed.
Lemma ord_range d lo hi : is_date d -> lo <= year d <= hi -> days_before_year lo < ord d <= days_before_year (hi + 1).
Proof.
  intros V R. apply is_date_iff in V. pose proof (ymd_year _ _ _ V) as H. unfold ord.
  assert (A : days_before_year lo <= days_before_year (year d)).
  { destruct (Z.eq_dec lo (year d)) as [-> | NE]; [lia |]. pose proof (dby_lt lo (year d) ltac:(lia)).
    pose proof (year_step lo). destruct (is_leap lo); lia. }
  assert (B : days_before_year (year d + 1) <= days_before_year (hi + 1)).
  { destruct (Z.eq_dec hi (year d)) as [-> | NE]; [lia |]. pose proof (dby_lt (year d) (hi + 1) ltac:(lia)). lia. }
  lia.
Qed.
Lemma shift_ok t dt : 86400 <= t + dt < 86400 * (max_ord + 1) -> shift t dt = Ok (t + dt).
Proof.
  intros H. unfold shift, max_ord in *. destruct (_ && _) eqn:E; [reflexivity |].
  Z.to_euclidean_division_equations. lia.
Qed.
Lemma names_bound : forallb (fun p => (-780 <=? snd p) && (snd p <=? 780)) zone_names = true.
Proof. vm_compute. reflexivity. Qed.
Lemma zone_bound t n : zone t n -> -2100 <= n <= 2100.
Proof.
  intros H. apply zone_cases in H as (a & k & o & m & _ & -> & O & A).
  assert (K : -780 <= k <= 780).
  { destruct A as [[_ ->] | (s & I & _)]; [lia |]. pose proof names_bound as B. rewrite forallb_forall in B. specialize (B _ I). cbn in B. lia. }
  assert (M : -1239 <= m <= 1239).
  { destruct O as [| sp q S | sp q S]; [lia | |]; destruct S; lia. }
  lia.
Qed.
Lemma now_fields w today n : now_is w today n -> year_of (w_now w) = year today /\ month_of (w_now w) = month today /\ day_of (w_now w) = day today.
Proof.
  intros [[c SH] E]. rewrite E. pose proof (shows_ord _ _ _ SH) as [O B]. apply shows_naive in SH as (V & _ & _).
  assert (Q : (n + day0) / 86400 = ord today) by (rewrite O; Z.to_euclidean_division_equations; lia).
  unfold year_of, month_of, day_of. rewrite Q. unfold ord. apply is_date_iff in V. rewrite ord2ymd_ord by exact V. auto.
Qed.

(** the year counts and the rest of the computation, when month and day are known *)
Lemma resolve_stated w v d dtz y0 dt t : agree v d -> d Year = Some y0 ->
  by_julian v y0 = Ok (year dt, Some (month dt), Some (day dt)) ->
  shows dt (clock_of d) t -> 2 <= year dt <= 9998 ->
  let tz := match d Zone with Some o => Some o | None => dtz end in
  -2880 <= tz_minutes tz <= 2880 -> resolve w v dtz = answer w tz t.
Proof.
  intros [A B] Y J SH R tz RZ. unfold resolve.
  change (dget "year" v) with (dget (var Year) v). rewrite A by (cbn; intuition discriminate). rewrite Y. cbv beta iota.
  rewrite J. cbn [bind]. cbv beta iota.
  change (dget "hour" v) with (dget (var Hour) v). change (dget "minute" v) with (dget (var Minute) v).
  change (dget "second" v) with (dget (var Second) v). change (dget "tzoffset" v) with (dget (var Zone) v).
  rewrite !B by (cbn; tauto). rewrite (A Zone) by (cbn; intuition discriminate).
  pose proof (shows_ord _ _ _ SH) as [O CB]. apply shows_naive in SH as (V & C & NV).
  change (or0 (d Hour)) with (hour (clock_of d)). change (or0 (d Minute)) with (minute (clock_of d)).
  change (or0 (d Second)) with (second (clock_of d)).
  rewrite mk_ok by (try assumption; lia). rewrite NV. cbn [bind]. fold tz.
  pose proof (ord_range dt 2 9998 V R) as OR. change (days_before_year 2) with 365 in OR. change (days_before_year (9998 + 1)) with 3651694 in OR.
  destruct tz as [o |]; cbn [tz_minutes] in RZ; cbn [bind andb answer].
  - rewrite shift_ok by (unfold max_ord; lia). cbn [bind]. unfold timegm. f_equal. unfold day0. lia.
  - reflexivity.
Qed.
Lemma resolve_no_year w v d dtz today n dt t : agree v d -> d Year = None -> now_is w today n -> 2 <= year today <= 9998 ->
  by_julian v (year today) = Ok (year dt, Some (month dt), Some (day dt)) ->
  shows dt (clock_of d) t -> 2 <= year dt <= 9998 ->
  let tz := match d Zone with Some o => Some o | None => dtz end in
  -2880 <= tz_minutes tz <= 2880 ->
  (t - 60 * tz_minutes tz <= n + 86400 -> resolve w v dtz = answer w tz t) /\
  (n + 86400 < t - 60 * tz_minutes tz ->
     (is_date (mkD (year dt - 1) (month dt) (day dt)) -> 0 <= clock_seconds (clock_of d) - 60 * tz_minutes tz < 86400 ->
        forall t', shows (mkD (year dt - 1) (month dt) (day dt)) (clock_of d) t' -> resolve w v dtz = answer w tz t') /\
     (~ is_date (mkD (year dt - 1) (month dt) (day dt)) -> resolve w v dtz = Err ValueErr)).
Proof.
  intros [A B] Y NOW RT J SH R tz RZ. unfold resolve.
  change (dget "year" v) with (dget (var Year) v). rewrite A by (cbn; intuition discriminate). rewrite Y. cbv beta iota.
  destruct (now_fields _ _ _ NOW) as (NY & NM & NDD). rewrite NY, J. cbn [bind]. cbv beta iota.
  change (dget "hour" v) with (dget (var Hour) v). change (dget "minute" v) with (dget (var Minute) v).
  change (dget "second" v) with (dget (var Second) v). change (dget "tzoffset" v) with (dget (var Zone) v).
  rewrite !B by (cbn; tauto). rewrite (A Zone) by (cbn; intuition discriminate).
  pose proof (shows_ord _ _ _ SH) as [O CB]. apply shows_naive in SH as (V & C & NV).
  change (or0 (d Hour)) with (hour (clock_of d)). change (or0 (d Minute)) with (minute (clock_of d)).
  change (or0 (d Second)) with (second (clock_of d)).
  rewrite mk_ok by (try assumption; lia). rewrite NV. cbn [bind]. fold tz.
  pose proof (ord_range dt 2 9998 V R) as OR. change (days_before_year 2) with 365 in OR. change (days_before_year (9998 + 1)) with 3651694 in OR.
  destruct NOW as [[cn NSH] NE]. pose proof (shows_ord _ _ _ NSH) as [NO NB]. apply shows_naive in NSH as (NV' & _ & _).
  pose proof (ord_range today 2 9998 NV' RT) as TR. change (days_before_year 2) with 365 in TR. change (days_before_year (9998 + 1)) with 3651694 in TR.
  assert (SHT : match tz with Some o => shift (t + day0) (- (o * 60)) | None => Ok (t + day0) end = Ok (t + day0 - 60 * tz_minutes tz)).
  { destruct tz as [o |]; cbn [tz_minutes] in *; [| f_equal; lia]. rewrite shift_ok by (unfold max_ord; lia). f_equal. lia. }
  rewrite SHT. cbn [bind andb]. rewrite NE, (shift_ok (n + day0) 86400) by (unfold max_ord; lia). cbn [bind].
  split; [| intros LATE; split].
  - intros LE. assert (X : (n + day0 + 86400 <? t + day0 - 60 * tz_minutes tz) = false) by lia. rewrite X. cbn [bind].
    destruct tz as [o |]; cbn [tz_minutes answer]; [f_equal; unfold timegm, day0; lia | unfold local; f_equal; lia].
  - intros V' CC t' SH'. assert (X : (n + day0 + 86400 <? t + day0 - 60 * tz_minutes tz) = true) by lia. rewrite X.
    pose proof (shows_ord _ _ _ SH') as [O' _]. unfold replace_date.
    pose proof V' as VV. apply is_date_iff in VV as [VM VD]. cbn [year month day] in VM, VD.
    destruct (_ && _) eqn:EE; [| lia]. cbn [bind]. clear EE.
    assert (MOD : (t + day0 - 60 * tz_minutes tz) mod 86400 = clock_seconds (clock_of d) - 60 * tz_minutes tz).
    { rewrite O. replace (ord dt * 86400 + clock_seconds (clock_of d) - 60 * tz_minutes tz)
        with (clock_seconds (clock_of d) - 60 * tz_minutes tz + ord dt * 86400) by lia.
      rewrite Z_mod_plus_full. now apply Z.mod_small. }
    rewrite MOD. unfold ord in O'. cbn [year month day] in O'.
    destruct tz as [o |]; cbn [tz_minutes answer]; [f_equal; unfold timegm, day0 in *; lia | unfold local; f_equal; lia].
  - intros NV''. assert (X : (n + day0 + 86400 <? t + day0 - 60 * tz_minutes tz) = true) by lia. rewrite X.
    unfold replace_date. destruct (_ && _) eqn:EE; [| reflexivity]. exfalso. apply NV''. apply is_date_iff.
    unfold valid. cbn [year month day]. lia.
Qed.

(** month and day as the line says *)
Lemma by_julian_said v d y m dd : agree v d -> d Month = Some m -> d Day = Some dd -> by_julian v y = Ok (y, Some m, Some dd).
Proof.
  intros [A _] M D. unfold by_julian. change (dget "month" v) with (dget (var Month) v). change (dget "day" v) with (dget (var Day) v).
  rewrite !A by (cbn; intuition discriminate). now rewrite M, D.
Qed.
Lemma by_julian_day v d y j dt : agree v d -> d Month = None \/ d Day = None -> d DayOfYear = Some j ->
  1 <= y <= 9999 -> day_of_year y j dt -> 1 <= year dt <= 9999 -> by_julian v y = Ok (year dt, Some (month dt), Some (day dt)).
Proof.
  intros [A _] M J Y (n & E1 & E2) R. unfold by_julian.
  change (dget "month" v) with (dget (var Month) v). change (dget "day" v) with (dget (var Day) v).
  change (dget "julian" v) with (dget (var DayOfYear) v).
  rewrite !A by (cbn; intuition discriminate). rewrite J.
  apply epoch_days_iff in E1 as [V1 O1], E2 as [V2 O2]. unfold ord in O1. cbn [year month day] in O1.
  pose proof (ord_range dt 1 9999 V2 R) as OR. change (days_before_year 1) with 0 in OR. change (days_before_year (9999 + 1)) with 3652059 in OR.
  assert (G : (if (1 <=? y) && (y <=? 9999) then bind (from_ordinal (j - 1 + ymd2ord y 1 1)) (fun ymd => let '(y, m, d) := ymd in Ok (y, Some m, Some d)) else Err ValueErr)
     = Ok (year dt, Some (month dt), Some (day dt))).
  { assert (X : (1 <=? y) && (y <=? 9999) = true) by lia. rewrite X. unfold from_ordinal.
    replace (j - 1 + ymd2ord y 1 1) with (ord dt) by lia.
    assert (X' : (1 <=? ord dt) && (ord dt <=? max_ord) = true) by (unfold max_ord; lia). rewrite X'. cbn [bind].
    unfold ord. apply is_date_iff in V2. now rewrite ord2ymd_ord. }
  destruct (d Month) as [m |]; [destruct (d Day) as [dd |]; [destruct M; discriminate |] |]; exact G.
Qed.
Lemma weekday_spec dt n : epoch_days dt n -> (n + 3) mod 7 = weekday (ord dt).
Proof. intros E. apply epoch_days_iff in E as [_ O]. rewrite O. unfold weekday. Z.to_euclidean_division_equations. lia. Qed.
Lemma by_julian_week v d y k wd (monday : bool) : agree v d -> d Month = None \/ d Day = None -> d DayOfYear = None ->
  d Week = Some k -> d Weekday = Some wd -> dget "week_of_year_start" v = Some (if monday then 0 else 6) -> 2 <= y <= 9997 -> 0 <= k <= 53 -> 0 <= wd <= 6 ->
  exists dt j, by_julian v y = Ok (year dt, Some (month dt), Some (day dt)) /\ is_date dt /\ julian_of_week y k wd monday = Ok j /\ ord dt = ymd2ord y 1 1 + j - 1 /\ -7 <= j <= 7 * 54.
Proof.
  intros [A _] M J W WD ST Y K D. unfold by_julian.
  change (dget "month" v) with (dget (var Month) v). change (dget "day" v) with (dget (var Day) v).
  change (dget "julian" v) with (dget (var DayOfYear) v). change (dget "week_of_year" v) with (dget (var Week) v).
  change (dget "weekday" v) with (dget (var Weekday) v).
  rewrite !A by (cbn; intuition discriminate). rewrite J, W, WD, ST.
  assert (X : (1 <=? y) && (y <=? 9999) = true) by lia.
  assert (V1 : is_date (mkD y 1 1)) by (apply is_date_iff; comp).
  pose proof (ord_range (mkD y 1 1) 2 9997 V1 Y) as OR. change (days_before_year 2) with 365 in OR. change (days_before_year (9997 + 1)) with 3651329 in OR.
  unfold ord in OR. cbn [year month day] in OR.
  assert (JB : exists j, julian_of_week y k wd monday = Ok j /\ -7 <= j <= 7 * 54).
  { unfold julian_of_week. rewrite X. eexists. split; [reflexivity |]. unfold weekday.
    destruct monday, (k =? 0) eqn:EK; Z.to_euclidean_division_equations; lia. }
  destruct JB as (j & EJ & BJ). exists (date_no (ymd2ord y 1 1 + j - 1)), j.
  destruct (date_no_ok (ymd2ord y 1 1 + j - 1)) as [DV DO].
  assert (SD : eqb (Some (if monday then 0 else 6)) (Some 0) = monday) by (destruct monday; reflexivity).
  rewrite SD, EJ. cbn [bind].
  assert (G : (if (1 <=? y) && (y <=? 9999) then bind (from_ordinal (j - 1 + ymd2ord y 1 1)) (fun ymd => let '(y, m, d) := ymd in Ok (y, Some m, Some d)) else Err ValueErr)
     = Ok (year (date_no (ymd2ord y 1 1 + j - 1)), Some (month (date_no (ymd2ord y 1 1 + j - 1))), Some (day (date_no (ymd2ord y 1 1 + j - 1))))).
  { rewrite X. unfold from_ordinal. replace (j - 1 + ymd2ord y 1 1) with (ymd2ord y 1 1 + j - 1) by lia.
    assert (X' : (1 <=? ymd2ord y 1 1 + j - 1) && (ymd2ord y 1 1 + j - 1 <=? max_ord) = true) by (unfold max_ord; lia).
    rewrite X'. cbn [bind]. unfold date_no. destruct (ord2ymd _) as [[? ?] ?]. reflexivity. }
  split; [| split; [exact DV | split; [reflexivity | split; [exact DO | exact BJ]]]].
  destruct (d Month) as [m |]; [destruct (d Day) as [dd |]; [destruct M; discriminate |] |]; exact G.
Qed.

(** the weeks of a year *)
Lemma succ7 x : 0 <= x <= 6 -> (x + 1) mod 7 = if x =? 6 then 0 else x + 1.
Proof. intros H. destruct (x =? 6) eqn:E; Z.to_euclidean_division_equations; lia. Qed.
Lemma neg7 x : 0 <= x <= 6 -> (7 - x) mod 7 = if x =? 0 then 0 else 7 - x.
Proof. intros H. destruct (x =? 0) eqn:E; Z.to_euclidean_division_equations; lia. Qed.
Lemma sub7 x : 0 <= x <= 6 -> (6 - x) mod 7 = 6 - x.
Proof. intros H. Z.to_euclidean_division_equations; lia. Qed.
Lemma weekday_has x : exists q, x + 6 = 7 * q + weekday x /\ 0 <= weekday x <= 6.
Proof.
  exists ((x + 6) / 7). unfold weekday. pose proof (Z.div_mod (x + 6) 7 ltac:(lia)).
  pose proof (Z.mod_pos_bound (x + 6) 7 ltac:(lia)). lia.
Qed.
Lemma weekday_is x q r : x + 6 = 7 * q + r -> 0 <= r <= 6 -> weekday x = r.
Proof. intros H R. unfold weekday. symmetry. apply (Z.mod_unique_pos _ _ q); lia. Qed.
Lemma week_weekday y k wd monday j : julian_of_week y k wd monday = Ok j -> 0 <= wd <= 6 -> weekday (ymd2ord y 1 1 + j - 1) = wd.
Proof.
  unfold julian_of_week. destruct (_ && _); [| discriminate]. intros E R.
  apply (f_equal (fun r => match r with Ok x => x | Err _ => 0 end)) in E. cbv beta iota zeta in E. subst j.
  destruct (weekday_has (ymd2ord y 1 1)) as (q & Q & F). revert Q F. generalize (ymd2ord y 1 1). intros J. generalize (weekday J). intros f Q F. cbv zeta.
  destruct monday.
  - rewrite neg7 by lia. destruct (k =? 0) eqn:EK; [apply (weekday_is _ q); lia |].
    destruct (f =? 0) eqn:E0; [apply (weekday_is _ (q + (k - 1))); lia |]. apply (weekday_is _ (q + k)); lia.
  - rewrite !succ7 by lia. destruct (f =? 6) eqn:E6; rewrite neg7 by lia.
    + cbn [Z.eqb]. destruct (k =? 0) eqn:EK, (wd =? 6) eqn:W6.
      * apply (weekday_is _ q); lia.
      * apply (weekday_is _ (q + 1)); lia.
      * apply (weekday_is _ (q + (k - 1))); lia.
      * apply (weekday_is _ (q + k)); lia.
    + assert (X : (f + 1 =? 0) = false) by lia. rewrite X. destruct (k =? 0) eqn:EK, (wd =? 6) eqn:W6.
      * apply (weekday_is _ (q - 1)); lia.
      * apply (weekday_is _ q); lia.
      * apply (weekday_is _ (q + k - 1)); lia.
      * apply (weekday_is _ (q + k)); lia.
Qed.
Lemma week_count y k wd (monday : bool) j : julian_of_week y k wd monday = Ok j -> 0 <= wd <= 6 -> 0 <= k ->
  (k = 0 -> weekday (ymd2ord y 1 1) <> if monday then 0 else 6) ->
  let first := ymd2ord y 1 1 + (if monday then (7 - weekday (ymd2ord y 1 1)) mod 7 else 6 - weekday (ymd2ord y 1 1)) in
  weekday first = (if monday then 0 else 6) /\ ymd2ord y 1 1 <= first < ymd2ord y 1 1 + 7 /\
  first + 7 * (k - 1) <= ymd2ord y 1 1 + j - 1 < first + 7 * k.
Proof.
  unfold julian_of_week. destruct (_ && _); [| discriminate]. intros E R K0.
  apply (f_equal (fun r => match r with Ok x => x | Err _ => 0 end)) in E. cbv beta iota zeta in E. subst j.
  destruct (weekday_has (ymd2ord y 1 1)) as (q & Q & F). revert Q F. generalize (ymd2ord y 1 1). intros J. generalize (weekday J). intros f Q F K. cbv zeta.
  destruct monday.
  - rewrite neg7 by lia. cbv zeta. destruct (f =? 0) eqn:E0.
    + split; [apply (weekday_is _ q); lia |]. split; [lia |]. destruct (k =? 0) eqn:EK; lia.
    + split; [apply (weekday_is _ (q + 1)); lia |]. split; [lia |]. destruct (k =? 0) eqn:EK; lia.
  - rewrite !succ7 by lia. cbv zeta. split; [apply (weekday_is _ q); lia |]. split; [lia |].
    destruct (f =? 6) eqn:E6; rewrite neg7 by lia.
    + cbn [Z.eqb]. destruct (k =? 0) eqn:EK, (wd =? 6) eqn:W6; lia.
    + assert (X : (f + 1 =? 0) = false) by lia. rewrite X. destruct (k =? 0) eqn:EK, (wd =? 6) eqn:W6; lia.
Qed.
Lemma count_starts dt y s first k : is_date dt -> year dt = y -> ymd2ord y 1 1 <= ord dt -> 0 <= s <= 6 ->
  weekday first = s -> ymd2ord y 1 1 <= first < ymd2ord y 1 1 + 7 -> 0 <= k ->
  first + 7 * (k - 1) <= ord dt < first + 7 * k ->
  forall l, so_far dt s l -> Z.of_nat (length l) = k.
Proof.
  intros V Y LO RS WF FB K0 KB l [ND SF].
  set (L := map (fun i => date_no (first + 7 * Z.of_nat i)) (seq 0 (Z.to_nat k))).
  assert (YR : forall x, ymd2ord y 1 1 <= x <= ord dt -> year (date_no x) = y).
  { intros x R. destruct (date_no_ok x) as [DV DO]. apply is_date_iff in DV as DV', V as V'. 
    assert (V1 : valid y 1 1) by comp.
    pose proof (ymd_year _ _ _ DV') as B1. pose proof (ymd_year _ _ _ V') as B2. fold (ord (date_no x)) in B1. fold (ord dt) in B2.
    pose proof (ymd_year _ _ _ V1) as B3. rewrite Y in B2.
    destruct (Z.lt_trichotomy (year (date_no x)) y) as [L1 | [E | L1]]; [| exact E |].
    - apply dby_lt in L1. lia.
    - apply dby_lt in L1. lia. }
  assert (P : forall x, In x L <-> In x l).
  { intros x. rewrite SF. unfold L. rewrite in_map_iff. split.
    - intros (i & <- & I). apply in_seq in I. destruct (date_no_ok (first + 7 * Z.of_nat i)) as [DV DO].
      pose proof (days_of_ord _ DV) as ED. rewrite DO in ED. split; [| split].
      + exists (first + 7 * Z.of_nat i - 719163). split; [exact ED |]. rewrite (weekday_spec _ _ ED), DO. rewrite <- WF. unfold weekday.
        Z.to_euclidean_division_equations. lia.
      + rewrite Y. apply YR. lia.
      + exists (first + 7 * Z.of_nat i - 719163), (ord dt - 719163). split; [exact ED | split; [now apply days_of_ord | lia]].
    - intros ((n & E & WD) & YE & (n' & k' & E1 & E2 & LE)). rewrite (weekday_spec _ _ E) in WD.
      apply epoch_days_iff in E as [XV XO], E1 as [_ XO1], E2 as [_ XO2].
      assert (LB : ymd2ord y 1 1 <= ord x).
      { apply is_date_iff in XV as XV'. pose proof (ymd_year _ _ _ XV') as B. fold (ord x) in B. rewrite YE, Y in B.
        unfold ymd2ord. rewrite january. lia. }
      exists (Z.to_nat ((ord x - first) / 7)).
      assert (Q : ord x = first + 7 * ((ord x - first) / 7) /\ 0 <= (ord x - first) / 7 < k).
      { unfold weekday in *. Z.to_euclidean_division_equations. lia. }
      destruct Q as [Q1 Q2]. split; [| apply in_seq; lia]. rewrite Z2Nat.id by lia. rewrite <- Q1.
      destruct (date_no_ok (ord x)) as [DV DO]. now apply ord_inj. }
  assert (NL : NoDup L).
  { unfold L. apply FinFun.Injective_map_NoDup; [| apply seq_NoDup]. intros i i' E. apply (f_equal ord) in E.
    rewrite (proj2 (date_no_ok _)), (proj2 (date_no_ok _)) in E. lia. }
  pose proof (NoDup_Permutation NL ND P) as PP. apply Permutation_length in PP. rewrite <- PP. unfold L. rewrite map_length, seq_length. lia.
Qed.

(** the time only *)
Lemma resolve_time w v d dtz today n t : agree v d -> d Year = None -> d Month = None -> d Day = None -> d DayOfYear = None ->
  d Week = None \/ d Weekday = None -> now_is w today n -> 2 <= year today <= 9998 ->
  shows today (clock_of d) t ->
  let tz := match d Zone with Some o => Some o | None => dtz end in
  -2880 <= tz_minutes tz <= 2880 ->
  resolve w v dtz = answer w tz (if n <? t - 60 * tz_minutes tz then t - 86400 else t) \/ (t - 60 * tz_minutes tz - 86400 > n).
Proof.
  intros [A B] Y M D J WW NOW RT SH tz RZ. unfold resolve.
  change (dget "year" v) with (dget (var Year) v). rewrite A by (cbn; intuition discriminate). rewrite Y. cbv beta iota.
  destruct (now_fields _ _ _ NOW) as (NY & NM & NDD).
  assert (BJ : by_julian v (year_of (w_now w)) = Ok (year_of (w_now w), None, None)).
  { unfold by_julian. change (dget "month" v) with (dget (var Month) v). change (dget "day" v) with (dget (var Day) v).
    change (dget "julian" v) with (dget (var DayOfYear) v). change (dget "week_of_year" v) with (dget (var Week) v).
    change (dget "weekday" v) with (dget (var Weekday) v).
    rewrite !A by (cbn; intuition discriminate). rewrite M, D, J. destruct WW as [-> | ->]; [reflexivity |].
    destruct (d Week); reflexivity. }
  rewrite BJ. cbn [bind]. cbv beta iota. rewrite NY, NM, NDD.
  change (dget "hour" v) with (dget (var Hour) v). change (dget "minute" v) with (dget (var Minute) v).
  change (dget "second" v) with (dget (var Second) v). change (dget "tzoffset" v) with (dget (var Zone) v).
  rewrite !B by (cbn; tauto). rewrite (A Zone) by (cbn; intuition discriminate).
  pose proof (shows_ord _ _ _ SH) as [O CB]. apply shows_naive in SH as (V & C & NV).
  change (or0 (d Hour)) with (hour (clock_of d)). change (or0 (d Minute)) with (minute (clock_of d)).
  change (or0 (d Second)) with (second (clock_of d)).
  rewrite mk_ok by (try assumption; lia). rewrite NV. cbn [bind]. fold tz.
  destruct NOW as [[cn NSH] NE]. pose proof (shows_ord _ _ _ NSH) as [NO NB].
  pose proof (ord_range today 2 9998 V RT) as TR. change (days_before_year 2) with 365 in TR. change (days_before_year (9998 + 1)) with 3651694 in TR.
  assert (SHT : match tz with Some o => shift (t + day0) (- (o * 60)) | None => Ok (t + day0) end = Ok (t + day0 - 60 * tz_minutes tz)).
  { destruct tz as [o |]; cbn [tz_minutes] in *; [| f_equal; lia]. rewrite shift_ok by (unfold max_ord; lia). f_equal. lia. }
  rewrite SHT. cbn [bind andb]. rewrite NE.
  destruct (Z_gt_dec (t - 60 * tz_minutes tz - 86400) n) as [FAR | NEAR]; [now right | left].
  replace (n + day0 <? t + day0 - 60 * tz_minutes tz) with (n <? t - 60 * tz_minutes tz) by lia.
  set (t2 := if n <? t - 60 * tz_minutes tz then t - 86400 else t).
  assert (S2 : (if n <? t - 60 * tz_minutes tz then shift (t + day0 - 60 * tz_minutes tz) (-86400) else Ok (t + day0 - 60 * tz_minutes tz))
     = Ok (t2 + day0 - 60 * tz_minutes tz)).
  { unfold t2. destruct (n <? _) eqn:X; [| reflexivity]. rewrite shift_ok by (unfold max_ord; lia). f_equal. lia. }
  rewrite S2. cbn [bind]. rewrite (shift_ok (n + day0) 86400) by (unfold max_ord; lia). cbn [bind].
  assert (X : (n + day0 + 86400 <? t2 + day0 - 60 * tz_minutes tz) = false) by (unfold t2; destruct (n <? _) eqn:Q; lia).
  rewrite X. cbn [bind]. destruct tz as [o |]; cbn [tz_minutes answer]; [f_equal; unfold timegm, day0; lia | unfold local; f_equal; lia].
Qed.
