(** Properties C44 and C45: time zones, and dates that leave something out. *)
From Verif Require Import Base Text Strptime_Model Strptime_Spec Strptime_Proofs Strptime_Proofs2 Strptime_Proofs3 Strptime_Proofs4 Strptime_Proofs5.
From Coq Require Import ZifyBool ZifyNat.
Local Open Scope string_scope. Local Open Scope list_scope. Local Open Scope Z_scope.

(** How the model's world is read here: [now_is w today n] (Strptime_Proofs4) says that MyTime.now()
    shows the day [today], [n] seconds after the beginning of 1970 on the local clock; [local w t] is
    what time.mktime makes of the moment at which the local clock shows what a clock at Greenwich
    shows at [t]. *)

(** * C44 *)
(** A full date with a zone is the moment at which a clock of that zone shows it: [60 * o] seconds
    before a clock at Greenwich does.  The settings, the clock and the time zone of the host do not
    matter, nor the order of the groups in the pattern. *)
Theorem C44_instant w fd dtz d y m dd o t : line_says fd d ->
  d Year = Some y -> d Month = Some m -> d Day = Some dd -> d Zone = Some o ->
  shows (mkD y m dd) (clock_of d) t -> 2 <= y <= 9998 ->
  strptime w fd dtz = Ok (t - 60 * o).
Proof.
  intros L Y M D ZN SH R. destruct (line_fields _ _ L) as (v & F & AG & _). unfold strptime. rewrite F. cbn [bind].
  rewrite (resolve_stated w v d dtz y (mkD y m dd) t AG Y (by_julian_said _ _ _ _ _ AG M D) SH R); rewrite ZN; [reflexivity |].
  cbn [tz_minutes]. destruct L as (_ & hf & _ & _ & ALL & _). destruct (ALL Zone o ZN) as (k & tt & _ & S).
  inversion S; subst; match goal with H : zone _ _ |- _ => apply zone_bound in H; lia end.
Qed.
(** Two full dates, in whatever zones and forms, give the same time exactly if they mean the same moment. *)
Theorem C44_same_instant w1 w2 fd1 fd2 z1 z2 d1 d2 y1 m1 a1 o1 t1 y2 m2 a2 o2 t2 :
  line_says fd1 d1 -> d1 Year = Some y1 -> d1 Month = Some m1 -> d1 Day = Some a1 -> d1 Zone = Some o1 ->
  shows (mkD y1 m1 a1) (clock_of d1) t1 -> 2 <= y1 <= 9998 ->
  line_says fd2 d2 -> d2 Year = Some y2 -> d2 Month = Some m2 -> d2 Day = Some a2 -> d2 Zone = Some o2 ->
  shows (mkD y2 m2 a2) (clock_of d2) t2 -> 2 <= y2 <= 9998 ->
  strptime w1 fd1 z1 = strptime w2 fd2 z2 <-> t1 - 60 * o1 = t2 - 60 * o2.
Proof.
  intros. erewrite (C44_instant w1 fd1) by eassumption. erewrite (C44_instant w2 fd2) by eassumption.
  split; congruence.
Qed.
(** Without a zone in the line: the zone that is set ("logtimezone") counts as if it were written there;
    if none is set, the local time of the host does. *)
Theorem C44_default w fd d y m dd t dtz : line_says fd d ->
  d Year = Some y -> d Month = Some m -> d Day = Some dd -> d Zone = None ->
  shows (mkD y m dd) (clock_of d) t -> 2 <= y <= 9998 ->
  (forall o, dtz = Some o -> exists z, zone z o) ->
  strptime w fd dtz = match dtz with Some o => Ok (t - 60 * o) | None => local w t end.
Proof.
  intros L Y M D ZN SH R DT. destruct (line_fields _ _ L) as (v & F & AG & _). unfold strptime. rewrite F. cbn [bind].
  rewrite (resolve_stated w v d dtz y (mkD y m dd) t AG Y (by_julian_said _ _ _ _ _ AG M D) SH R); rewrite ZN; [reflexivity |].
  destruct dtz as [o |]; cbn [tz_minutes]; [| lia]. destruct (DT o eq_refl) as (z & Hz). apply zone_bound in Hz. lia.
Qed.
(** A date or time of the day that does not exist (30 February, 24:00:00, a leap second) is no date at all. *)
Theorem C44_no_such_date w fd d y m dd dtz : line_says fd d ->
  d Year = Some y -> d Month = Some m -> d Day = Some dd ->
  ~ (is_date (mkD y m dd) /\ is_clock (clock_of d)) -> strptime w fd dtz = Err ValueErr.
Proof.
  intros L Y M D N. destruct (line_fields _ _ L) as (v & F & AG & _). unfold strptime. rewrite F. cbn [bind].
  now apply (resolve_bad w v d dtz y m dd).
Qed.
(** What validation accepts: exactly the zones of the specification, with their offset. *)
Theorem C44_valid s n : validate_tz s = Ok n <-> exists t, zone t n /\ (s = t \/ s = t ++ [newline]).
Proof. apply validate_iff. Qed.
(** A text of the accepted form whose abbreviation is not known does not count as an unknown zone: it
    raises a KeyError, which the reading of dates does not expect (a date with "BST" ends the reading of the line
    with an error); two-letter names are in the table but not accepted. *)
Theorem C44_unknown_refuted : ~ (forall s, (exists n, validate_tz s = Ok n) \/ validate_tz s = Err ValueErr).
Proof. intros H. destruct (H (tx "BST")) as [(n & E) | E]; vm_compute in E; discriminate. Qed.
Theorem C44_listed_refuted : exists s k, In (tx s, k) tz_abbr /\ validate_tz (tx s) = Err ValueErr.
Proof. exists "PT", (-480). split; [| vm_compute; reflexivity]. vm_compute. tauto. Qed.
(** A zone in lower case is matched by the date patterns (they ignore case), but is no zone. *)
Theorem C44_lower_refuted : exists s n, validate_tz (tx s) = Ok n /\ validate_tz (lower (tx s)) = Err ValueErr.
Proof. exists "CEST", 120. split; vm_compute; reflexivity. Qed.
(** a TAI64N label: the 15 digits after "@4" *)
Theorem C44_tai64n s j rest : 0 <= s -> length (repeat "0"%char j ++ show 16 s) = 15%nat ->
  tai64n ("@"%char :: "4"%char :: (repeat "0"%char j ++ show 16 s) ++ rest) = Ok s.
Proof.
  intros P L. unfold tai64n. cbn [skipn]. rewrite firstn_app, L, Nat.sub_diag, firstn_O, app_nil_r.
  rewrite <- L, firstn_all, read_zeros16 by exact P. reflexivity.
Qed.

(** A line for the examples: "Sat, 7 Nov 2026 11:59:30 pm +0530" *)
Definition line1 : groups :=
  [("a", Some (tx "Sat")); ("d", Some (tx " 7")); ("b", Some (tx "Nov")); ("Y", Some (tx "2026"));
   ("I", Some (tx "11")); ("M", Some (tx "59")); ("S", Some (tx "30")); ("f", None); ("p", Some (tx "PM"));
   ("z", Some (tx "+0530"))].
Definition said1 (w : what) : option Z :=
  match w with
  | Year => Some 2026 | Month => Some 11 | Day => Some 7 | Hour => Some 23 | Minute => Some 59 | Second => Some 30
  | Weekday => Some 5 | Zone => Some 330 | _ => None
  end.
Lemma num1 i j n t : 0 <= n -> t = repeat " "%char i ++ repeat "0"%char j ++ dec n -> numeral t n.
Proof. intros P ->. split; [exact P | eauto]. Qed.
Ltac same := unfold same_letters, tx; cbn [list_ascii_of_string];
  repeat (apply Forall2_cons; [first [left; reflexivity | right; split; [reflexivity | vm_compute; split; discriminate]] |]); apply Forall2_nil.
Ltac unique := let A := fresh in let B := fresh in let I := fresh in let J := fresh in let w := fresh in
  intros ? ? ? ? w ? ? I J A B; apply says_key in A, B; destruct w; cbn [keys_of In] in A, B;
  decompose [or] A; decompose [or] B; subst; try contradiction; try reflexivity; exfalso;
  vm_compute in I, J; decompose [or] I; decompose [or] J; try contradiction; discriminate.
Example C44_demo_line : line_says line1 said1.
Proof.
  assert (Z530 : zone (tx "+0530") 330).
  { apply zo_offset. apply (of_ahead (tx "0530") 330). apply (sp_hm 5 30); lia. }
  assert (A : says Afternoon "a" (tx "Sat") Weekday 5) by (eapply sy_a; [cbn; do 5 right; left; reflexivity | same]).
  assert (D : says Afternoon "d" (tx " 7") Day 7) by (apply sy_d, (num1 1 0); [lia | reflexivity]).
  assert (B : says Afternoon "b" (tx "Nov") Month 11) by (eapply sy_b; [cbn; do 10 right; left; reflexivity | same]).
  assert (Y : says Afternoon "Y" (tx "2026") Year 2026) by (apply sy_Y, (num1 0 0); [lia | reflexivity]).
  assert (H : says Afternoon "I" (tx "11") Hour 23) by (apply (sy_I Afternoon _ 11); [apply (num1 0 0); [lia | reflexivity] | lia]).
  assert (M : says Afternoon "M" (tx "59") Minute 59) by (apply sy_M, (num1 0 0); [lia | reflexivity]).
  assert (S : says Afternoon "S" (tx "30") Second 30) by (apply sy_S, (num1 0 0); [lia | reflexivity]).
  assert (Zn : says Afternoon "z" (tx "+0530") Zone 330) by (apply sy_z; exact Z530).
  split; [repeat constructor; cbn; intuition discriminate |]. exists Afternoon. split; [| split; [| split]].
  - intros _. exists (tx "PM"). split; [cbn; tauto | same].
  - intros k t I. cbn [line1 In] in I. decompose [or] I; try contradiction;
      match goal with E : (_, _) = (_, _) |- _ => first [discriminate E | injection E as <- <-] end;
      first [right; eexists _, _; split; [eassumption | reflexivity] | left; unfold silent; cbn [In]; intuition discriminate].
  - intros w n E. destruct w; cbn [said1] in E; try discriminate; injection E as <-; eexists _, _; (split; [| eassumption]); cbn; tauto.
  - unique.
Qed.
Example C44_demo_day : shows (mkD 2026 11 7) (clock_of said1) 1794095970.
Proof.
  exists 20764. split; [| split; [unfold is_clock; cbn; lia | reflexivity]].
  apply epoch_days_iff. split; [apply is_date_iff; comp | reflexivity].
Qed.
Example C44_demo w dtz : strptime w line1 dtz = Ok 1794076170.
Proof. rewrite (C44_instant w line1 dtz said1 2026 11 7 330 1794095970 C44_demo_line); try reflexivity; [apply C44_demo_day | lia]. Qed.
(** the same moment, written in New York *)
Example C44_demo_same w dtz : strptime w [("Y", Some (tx "2026")); ("m", Some (tx "11")); ("d", Some (tx "07"));
    ("H", Some (tx "13")); ("M", Some (tx "29")); ("S", Some (tx "30")); ("Z", Some (tx "EST"))] dtz = Ok 1794076170.
Proof. vm_compute. reflexivity. Qed.
Example C44_demo_zones : forall p, In p [("UTC", 0); ("Z", 0); ("GMT", 0); ("CET", 60); ("CEST", 120); ("EET", 120); ("MSK", 180);
    ("EST", -300); ("EDT", -240); ("CST", -360); ("PST", -480); ("PDT", -420); ("JST", 540); ("AEST", 600); ("NPT", 345);
    ("UTC+0200", 120); ("-04:30", -270); ("+05", 300); ("CET+0100", 120)] -> validate_tz (tx (fst p)) = Ok (snd p).
Proof. intros p I. cbn [In] in I. repeat (destruct I as [<- | I]; [vm_compute; reflexivity |]). contradiction. Qed.
Example C44_demo_tai : tai64n (tx "@4000000052df29602b20b7ec") = Ok 1390356832.
Proof. vm_compute. reflexivity. Qed.

(** * C45 *)
(** Month and day, but no year (and no zone): the date of this year, unless that is more than a day
    ahead of the clock; then the one of last year, as local time.  So the date is never more than a day ahead. *)
Theorem C45_year w fd d m dd today n : line_says fd d ->
  d Year = None -> d Month = Some m -> d Day = Some dd -> d Zone = None ->
  now_is w today n -> 3 <= year today <= 9998 -> is_clock (clock_of d) ->
  is_date (mkD (year today) m dd) -> is_date (mkD (year today - 1) m dd) ->
  exists y t, shows (mkD y m dd) (clock_of d) t /\ strptime w fd None = local w t /\ t <= n + 86400 /\
    (y = year today \/ (y = year today - 1 /\ forall t', shows (mkD (year today) m dd) (clock_of d) t' -> n + 86400 < t')).
Proof.
  intros L Y M D ZN NOW R C V V'. destruct (line_fields _ _ L) as (v & F & AG & _). unfold strptime. rewrite F. cbn [bind].
  destruct (shows_exists _ _ V C) as (t & SH). destruct (shows_exists _ _ V' C) as (t' & SH').
  pose proof (resolve_no_year w v d None today n (mkD (year today) m dd) t AG Y NOW ltac:(lia) (by_julian_said _ _ _ _ _ AG M D) SH ltac:(cbn [year]; lia)) as H.
  rewrite ZN in H. cbn [tz_minutes answer] in H. destruct (H ltac:(lia)) as [A B].
  destruct (Z_le_gt_dec t (n + 86400)) as [LE | GT].
  - exists (year today), t. split; [exact SH | split; [apply A; lia | split; [exact LE | now left]]].
  - exists (year today - 1), t'. split; [exact SH' |]. destruct (B ltac:(lia)) as [B1 _]. cbn [year month day] in B1.
    pose proof (shows_ord _ _ _ SH') as [O' CB]. split; [apply B1; [exact V' | lia | exact SH'] |]. split.
    + destruct NOW as [[cn NSH] _]. pose proof (shows_ord _ _ _ NSH) as [NO NB]. apply shows_naive in NSH as (NV & _ & _).
      assert (ord (mkD (year today - 1) m dd) < ord today).
      { unfold ord. apply is_date_iff in V', NV. apply ymd_lt; [exact V' | exact NV | left; cbn [year]; lia]. }
      lia.
    + right. split; [reflexivity |]. intros t2 S2. rewrite (shows_fun _ _ _ _ S2 SH). lia.
Qed.
(** The same with a zone, written or set, provided the date at Greenwich is the one written. *)
Theorem C45_year_zone w fd d m dd today n o t t' dtz : line_says fd d ->
  d Year = None -> d Month = Some m -> d Day = Some dd ->
  match d Zone with Some o => Some o | None => dtz end = Some o -> -2880 <= o <= 2880 ->
  now_is w today n -> 3 <= year today <= 9998 ->
  shows (mkD (year today) m dd) (clock_of d) t -> shows (mkD (year today - 1) m dd) (clock_of d) t' ->
  (t - 60 * o <= n + 86400 -> strptime w fd dtz = Ok (t - 60 * o)) /\
  (n + 86400 < t - 60 * o -> 0 <= clock_seconds (clock_of d) - 60 * o < 86400 -> strptime w fd dtz = Ok (t' - 60 * o)).
Proof.
  intros L Y M D ZN RO NOW R SH SH'. destruct (line_fields _ _ L) as (v & F & AG & _). unfold strptime. rewrite F. cbn [bind].
  pose proof (resolve_no_year w v d dtz today n (mkD (year today) m dd) t AG Y NOW ltac:(lia) (by_julian_said _ _ _ _ _ AG M D) SH ltac:(cbn [year]; lia)) as H.
  rewrite ZN in H. cbn [tz_minutes answer] in H. destruct (H RO) as [A B]. split; [exact A |].
  intros LATE C. destruct (B LATE) as [B1 _]. apply B1; [apply (shows_naive _ _ _ SH') | exact C | exact SH'].
Qed.
(** A day and month that this year does not have, or last year in the case above, is no date. *)
Theorem C45_no_such_day w fd d m dd today n dtz : line_says fd d ->
  d Year = None -> d Month = Some m -> d Day = Some dd -> now_is w today n ->
  ~ (is_date (mkD (year today) m dd) /\ is_clock (clock_of d)) -> strptime w fd dtz = Err ValueErr.
Proof.
  intros L Y M D NOW N. destruct (line_fields _ _ L) as (v & F & AG & _). unfold strptime. rewrite F. cbn [bind].
  now apply (resolve_bad_year w v d dtz today n m dd).
Qed.
(** Whatever the groups say, if there is no year, day of the year or week among them: the time is not
    more than a day ahead of the clock. *)
Theorem C45_not_ahead w fd dtz today n r : now_is w today n ->
  (forall k t, In (k, Some t) fd -> ~ In k ["Y"; "y"; "j"; "U"; "W"]) ->
  strptime w fd dtz = Ok r -> exists t, t <= n + 86400 /\ (r = t \/ local w t = Ok r).
Proof. apply not_ahead. Qed.
(** Only a time of the day: today's, unless that is ahead of the clock; then yesterday's.  So the last
    moment at which the local clock showed it. *)
Theorem C45_today w fd d today n t : line_says fd d ->
  d Year = None -> d Month = None -> d Day = None -> d DayOfYear = None -> d Week = None \/ d Weekday = None -> d Zone = None ->
  now_is w today n -> 2 <= year today <= 9998 -> shows today (clock_of d) t ->
  exists t', strptime w fd None = local w t' /\ n - 86400 < t' <= n /\ (t' = t \/ t' = t - 86400).
Proof.
  intros L Y M D J WW ZN NOW R SH. destruct (line_fields _ _ L) as (v & F & AG & _). unfold strptime. rewrite F. cbn [bind].
  pose proof (resolve_time w v d None today n t AG Y M D J WW NOW R SH) as H. rewrite ZN in H. cbn [tz_minutes answer] in H.
  destruct NOW as [[cn NSH] _]. pose proof (shows_ord _ _ _ NSH) as [NO NB]. pose proof (shows_ord _ _ _ SH) as [O B].
  destruct (H ltac:(lia)) as [E | FAR]; [| lia]. rewrite E. replace (t - 60 * 0) with t by lia.
  destruct (n <? t) eqn:X; eexists; (split; [reflexivity |]); lia.
Qed.
(** The same with a zone: the clock time is taken as one of today's date, and of yesterday's if it is ahead
    of the clock. *)
Theorem C45_today_zone w fd d today n t o dtz : line_says fd d ->
  d Year = None -> d Month = None -> d Day = None -> d DayOfYear = None -> d Week = None \/ d Weekday = None ->
  match d Zone with Some o => Some o | None => dtz end = Some o -> -2880 <= o <= 2880 ->
  now_is w today n -> 2 <= year today <= 9998 -> shows today (clock_of d) t -> t - 60 * o <= n + 86400 ->
  strptime w fd dtz = Ok (if n <? t - 60 * o then t - 60 * o - 86400 else t - 60 * o).
Proof.
  intros L Y M D J WW ZN RO NOW R SH NEAR. destruct (line_fields _ _ L) as (v & F & AG & _). unfold strptime. rewrite F. cbn [bind].
  pose proof (resolve_time w v d dtz today n t AG Y M D J WW NOW R SH) as H. rewrite ZN in H. cbn [tz_minutes answer] in H.
  destruct (H RO) as [E | FAR]; [| lia]. rewrite E. f_equal. destruct (n <? _); lia.
Qed.
(** The day of the year, with a year: that day. *)
Theorem C45_day_of_year w fd d y j dt t dtz : line_says fd d ->
  d Year = Some y -> d Month = None \/ d Day = None -> d DayOfYear = Some j -> d Zone = None ->
  2 <= y <= 9998 -> day_of_year y j dt -> 2 <= year dt <= 9998 -> shows dt (clock_of d) t ->
  (forall o, dtz = Some o -> exists z, zone z o) ->
  strptime w fd dtz = match dtz with Some o => Ok (t - 60 * o) | None => local w t end.
Proof.
  intros L Y M J ZN R DY RD SH DT. destruct (line_fields _ _ L) as (v & F & AG & _). unfold strptime. rewrite F. cbn [bind].
  rewrite (resolve_stated w v d dtz y dt t AG Y (by_julian_day v d y j dt AG M J ltac:(lia) DY ltac:(lia)) SH RD); rewrite ZN; [reflexivity |].
  destruct dtz as [o |]; cbn [tz_minutes]; [| lia]. destruct (DT o eq_refl) as (z & Hz). apply zone_bound in Hz. lia.
Qed.
(** ... and without a year: that day of this year, or, if it is more than a day ahead of the clock, the
    day of last year with the same month and day. *)
Theorem C45_day_no_year w fd d j dt t t' today n : line_says fd d ->
  d Year = None -> d Month = None \/ d Day = None -> d DayOfYear = Some j -> d Zone = None ->
  now_is w today n -> 3 <= year today <= 9997 -> day_of_year (year today) j dt -> year dt = year today -> shows dt (clock_of d) t ->
  shows (mkD (year today - 1) (month dt) (day dt)) (clock_of d) t' ->
  strptime w fd None = local w (if n + 86400 <? t then t' else t).
Proof.
  intros L Y M J ZN NOW R DY EY SH SH'. destruct (line_fields _ _ L) as (v & F & AG & _). unfold strptime. rewrite F. cbn [bind].
  pose proof (resolve_no_year w v d None today n dt t AG Y NOW ltac:(lia) (by_julian_day v d (year today) j dt AG M J ltac:(lia) DY ltac:(lia)) SH ltac:(lia)) as H.
  rewrite ZN in H. cbn [tz_minutes answer] in H. destruct (H ltac:(lia)) as [A B]. pose proof (shows_ord _ _ _ SH') as [O' CB].
  destruct (n + 86400 <? t) eqn:X; [| apply A; lia]. destruct (B ltac:(lia)) as [B1 _]. rewrite EY in B1.
  apply B1; [apply (shows_naive _ _ _ SH') | lia | exact SH'].
Qed.
(** A year, a week of it and a day of the week: the day has that name, and, if it lies in that year, so many
    first days of a week (Sundays for %U, Mondays for %W) have been in the year up to it.  (Week 0 needs days
    before the first such day.) *)
Theorem C45_week w fd d y k wd (monday : bool) : line_says fd d ->
  d Year = Some y -> d Month = None \/ d Day = None -> d DayOfYear = None -> d Week = Some k -> d Weekday = Some wd -> d Zone = None ->
  (exists tt, In (if monday then "W" else "U", Some tt) fd) ->
  3 <= y <= 9997 -> k <= 53 -> is_clock (clock_of d) ->
  (k = 0 -> ~ weekday_of (mkD y 1 1) (if monday then 0 else 6)) ->
  exists dt t, shows dt (clock_of d) t /\ strptime w fd None = local w t /\ weekday_of dt wd /\
    (year dt = y -> forall l, so_far dt (if monday then 0 else 6) l -> Z.of_nat (length l) = k).
Proof.
  intros L Y M J K WD ZN (tt & IN) R KR C W0. destruct (line_fields _ _ L) as (v & F & AG & SU & SM). unfold strptime. rewrite F. cbn [bind].
  assert (ST : dget "week_of_year_start" v = Some (if monday then 0 else 6)) by (destruct monday; eauto).
  assert (KW : 0 <= k /\ 0 <= wd <= 6).
  { destruct L as (_ & hf & _ & _ & ALL & _). destruct (ALL _ _ K) as (k1 & t1 & _ & S1). destruct (ALL _ _ WD) as (k2 & t2 & _ & S2). split.
    - inversion S1; subst; match goal with H : numeral _ _ |- _ => destruct H as [? _]; lia end.
    - inversion S2; subst.
      + match goal with H : In _ day_names |- _ => cbn [day_names In] in H; decompose [or] H; try contradiction; match goal with E : (_, _, _) = _ |- _ => injection E as <- _ _; lia end end.
      + match goal with H : In _ day_names |- _ => cbn [day_names In] in H; decompose [or] H; try contradiction; match goal with E : (_, _, _) = _ |- _ => injection E as <- _ _; lia end end.
      + match goal with |- 0 <= ?x mod 7 <= 6 => pose proof (Z.mod_pos_bound x 7 ltac:(lia)); lia end. }
  destruct KW as [K0 WR].
  destruct (by_julian_week v d y k wd monday AG M J K WD ST ltac:(lia) ltac:(lia) WR) as (dt & j & BJ & V & EJ & O & JB).
  assert (YR : 2 <= year dt <= 9998).
  { apply is_date_iff in V as V'. pose proof (ymd_year _ _ _ V') as B. fold (ord dt) in B.
    assert (V1 : valid y 1 1) by comp. pose proof (ymd_year _ _ _ V1) as B1.
    assert (E1 : ymd2ord y 1 1 = days_before_year y + 1) by (unfold ymd2ord; rewrite january; lia).
    pose proof (year_step y). pose proof (year_step (y + 1)). pose proof (year_step (y - 1)) as S0. replace (y - 1 + 1) with y in S0 by lia.
    assert (LO : ~ year dt < y - 1) by (intros Q; apply dby_lt in Q; destruct (is_leap (y - 1)); lia).
    assert (HI : ~ y + 1 < year dt) by (intros Q; apply dby_lt in Q; destruct (is_leap y), (is_leap (y + 1)); lia).
    lia. }
  destruct (shows_exists _ _ V C) as (t & SH). exists dt, t. split; [exact SH |]. split; [| split].
  - rewrite (resolve_stated w v d None y dt t AG Y BJ SH YR); rewrite ZN; [reflexivity | cbn; lia].
  - exists (ord dt - 719163). split; [now apply days_of_ord |]. rewrite (weekday_spec _ _ (days_of_ord _ V)), O. symmetry.
    eapply week_weekday; eassumption.
  - intros YE. assert (V1 : is_date (mkD y 1 1)) by (apply is_date_iff; comp).
    assert (W0' : k = 0 -> weekday (ymd2ord y 1 1) <> (if monday then 0 else 6)).
    { intros E C'. apply (W0 E). exists (ord (mkD y 1 1) - 719163). split; [now apply days_of_ord |].
      rewrite (weekday_spec _ _ (days_of_ord _ V1)). symmetry. exact C'. }
    pose proof (week_count y k wd monday j EJ WR K0 W0') as (WF & FB & KB). rewrite <- O in KB.
    eapply count_starts; [exact V | exact YE | | | exact WF | exact FB | exact K0 | exact KB].
    + apply is_date_iff in V. pose proof (ymd_year _ _ _ V) as B. fold (ord dt) in B. rewrite YE in B.
      unfold ymd2ord. rewrite january. lia.
    + destruct monday; lia.
Qed.

(** The 29th of February without a year is no date when this year has no such day, although last year
    had one; nor, in a leap year, before that day, as last year had none. *)
Definition clock_at (y m dd h mi s : Z) : world := mkW (naive y m dd h mi s) (fun t => Ok (t - day0)).
Definition feb29 : groups := [("b", Some (tx "Feb")); ("d", Some (tx "29")); ("H", Some (tx "23")); ("M", Some (tx "59")); ("S", Some (tx "58"))].
Theorem C45_leap_day_refuted : strptime (clock_at 2029 1 1 0 0 5) feb29 None = Err ValueErr
  /\ strptime (clock_at 2028 1 20 12 0 0) feb29 None = Err ValueErr.
Proof. split; vm_compute; reflexivity. Qed.
(** With a zone, a date of last year loses the day that the zone shifted it by: 31 December 20:00 at -0500 is
    1 January 01:00 at Greenwich, and becomes 31 December 01:00, a day too early. *)
Definition dec31 (z : string) : groups := [("b", Some (tx "Dec")); ("d", Some (tx "31")); ("H", Some (tx "20")); ("M", Some (tx "00")); ("S", Some (tx "00")); ("z", Some (tx z))].
Theorem C45_zone_day_refuted : strptime (clock_at 2026 1 2 12 0 0) (dec31 "-0500") None = Ok (timegm (naive 2025 12 31 1 0 0))
  /\ strptime (clock_at 2026 1 2 12 0 0) (("Y", Some (tx "2025")) :: dec31 "-0500") None = Ok (timegm (naive 2026 1 1 1 0 0)).
Proof. split; vm_compute; reflexivity. Qed.
(** A time of the day with a zone is compared with the local clock as if that were Greenwich time: on a host eight
    hours behind, a line written five minutes ago in UTC is taken for one of the day before. *)
Theorem C45_zone_today_refuted : strptime (clock_at 2026 3 10 20 5 0) [("H", Some (tx "04")); ("M", Some (tx "00")); ("S", Some (tx "00")); ("z", Some (tx "Z"))] None
  = Ok (timegm (naive 2026 3 11 4 0 0) - 86400).
Proof. vm_compute. reflexivity. Qed.
(** Day 366 of a year that has 365: the first day of the next year. *)
Theorem C45_day_366_refuted : strptime (clock_at 2026 3 10 0 0 0) [("Y", Some (tx "2025")); ("j", Some (tx "366"))] None = Ok (timegm (naive 2026 1 1 0 0 0)).
Proof. vm_compute. reflexivity. Qed.
(** A week without a year can put the date far ahead of the clock. *)
Theorem C45_week_ahead_refuted : exists t, strptime (clock_at 2026 1 1 12 0 0) [("U", Some (tx "53")); ("w", Some (tx "6"))] None = Ok t
  /\ t > timegm (naive 2026 1 1 12 0 0) + 5 * 86400.
Proof. eexists. split; [vm_compute; reflexivity | vm_compute; reflexivity]. Qed.
(** Some lines raise what the caller does not expect: a month without a day; an optional "am/pm" that is not there. *)
Theorem C45_error_refuted : strptime (clock_at 2026 1 1 12 0 0) [("b", Some (tx "Jan"))] None = Err TypeErr
  /\ strptime (clock_at 2026 1 1 12 0 0) [("I", Some (tx "10")); ("p", None)] None = Err AttrErr.
Proof. split; vm_compute; reflexivity. Qed.

(** Examples: the clock shows 2026-03-10 12:00:00. *)
Definition march (s : string) : groups := [("b", Some (tx "Mar")); ("d", Some (tx s)); ("H", Some (tx "08")); ("M", Some (tx "30")); ("S", Some (tx "01"))].
Definition march_says (n : Z) (w : what) : option Z :=
  match w with Month => Some 3 | Day => Some n | Hour => Some 8 | Minute => Some 30 | Second => Some 1 | _ => None end.
Example C45_demo_line : line_says (march "12") (march_says 12).
Proof.
  assert (D : says Morning "d" (tx "12") Day 12) by (apply sy_d, (num1 0 0); [lia | reflexivity]).
  assert (B : says Morning "b" (tx "Mar") Month 3) by (eapply sy_b; [cbn; do 2 right; left; reflexivity | same]).
  assert (H : says Morning "H" (tx "08") Hour 8) by (apply sy_H, (num1 0 1); [lia | reflexivity]).
  assert (M : says Morning "M" (tx "30") Minute 30) by (apply sy_M, (num1 0 0); [lia | reflexivity]).
  assert (S : says Morning "S" (tx "01") Second 1) by (apply sy_S, (num1 0 1); [lia | reflexivity]).
  split; [repeat constructor; cbn; intuition discriminate |]. exists Morning. split; [| split; [| split]].
  - intros _. left. intros o I. cbn in I. intuition discriminate.
  - intros k t I. cbn [march In] in I. decompose [or] I; try contradiction;
      match goal with E : (_, _) = (_, _) |- _ => injection E as <- <- end; right; eexists _, _; (split; [eassumption | reflexivity]).
  - intros w n E. destruct w; cbn [march_says] in E; try discriminate; injection E as <-; eexists _, _; (split; [| eassumption]); cbn; tauto.
  - unique.
Qed.
Example C45_demo_now : now_is (clock_at 2026 3 10 12 0 0) (mkD 2026 3 10) 1773144000.
Proof.
  split; [| reflexivity]. exists (mkC 12 0 0). exists 20522. split; [| split; [unfold is_clock; cbn; lia | reflexivity]].
  apply epoch_days_iff. split; [apply is_date_iff; comp | reflexivity].
Qed.
(** two days ahead: last year; 20 hours ahead: this year *)
Example C45_demo : strptime (clock_at 2026 3 10 12 0 0) (march "12") None = Ok (timegm (naive 2025 3 12 8 30 1))
  /\ strptime (clock_at 2026 3 10 12 0 0) (march "11") None = Ok (timegm (naive 2026 3 11 8 30 1))
  /\ strptime (clock_at 2026 3 10 12 0 0) (skipn 2 (march "11")) None = Ok (timegm (naive 2026 3 10 8 30 1))
  /\ strptime (clock_at 2026 3 10 7 0 0) (skipn 2 (march "11")) None = Ok (timegm (naive 2026 3 9 8 30 1))
  /\ strptime (clock_at 2026 3 10 7 0 0) [("y", Some (tx "26")); ("W", Some (tx "10")); ("a", Some (tx "Tue"))] None = Ok (timegm (naive 2026 3 10 0 0 0)).
Proof. repeat split; vm_compute; reflexivity. Qed.

Print Assumptions C44_instant.
Print Assumptions C44_same_instant.
Print Assumptions C44_default.
Print Assumptions C44_no_such_date.
Print Assumptions C44_valid.
Print Assumptions C44_unknown_refuted.
Print Assumptions C44_listed_refuted.
Print Assumptions C44_lower_refuted.
Print Assumptions C44_tai64n.
Print Assumptions C45_year.
Print Assumptions C45_year_zone.
Print Assumptions C45_no_such_day.
Print Assumptions C45_not_ahead.
Print Assumptions C45_today.
Print Assumptions C45_today_zone.
Print Assumptions C45_day_of_year.
Print Assumptions C45_day_no_year.
Print Assumptions C45_week.
Print Assumptions C45_leap_day_refuted.
Print Assumptions C45_zone_day_refuted.
Print Assumptions C45_zone_today_refuted.
Print Assumptions C45_day_366_refuted.
Print Assumptions C45_week_ahead_refuted.
Print Assumptions C45_error_refuted.
