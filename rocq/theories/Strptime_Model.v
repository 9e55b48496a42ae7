(** Model of fail2ban/server/strptime.py: time zones, and how the fields of a date become a time;
    with the parts of CPython's datetime, calendar and _strptime that it uses. *)
From Verif Require Import Base Text.
From Coq Require Import ZifyBool ZifyNat.

Local Open Scope string_scope. Local Open Scope list_scope. Local Open Scope Z_scope.

(** What Python raises.  [DateDetector.getTime] (datedetector.py:485-499) takes a ValueError as
    "no date"; the others go on to the caller. *)
Inductive exn := ValueErr | KeyErr | TypeErr | OverflowErr | AttrErr.
Inductive res (A : Type) := Ok (a : A) | Err (e : exn).
Arguments Ok {A}. Arguments Err {A}.
Definition bind {A B} (r : res A) (k : A -> res B) : res B :=
  match r with Ok a => k a | Err e => Err e end.
Definition value_of {A} (o : option A) : res A := match o with Some a => Ok a | None => Err ValueErr end.

(** * The calendar: CPython's Lib/datetime.py, _is_leap, _days_before_year, _days_in_month,
      _days_before_month, _ymd2ord *)
Definition is_leap (y : Z) : bool := (y mod 4 =? 0) && (negb (y mod 100 =? 0) || (y mod 400 =? 0)).
Definition days_before_year (y : Z) : Z :=
  let y := y - 1 in y * 365 + y / 4 - y / 100 + y / 400.
Definition days_in_month (y m : Z) : Z :=
  if (m =? 2) && is_leap y then 29
  else nth (Z.to_nat m) [-1; 31; 28; 31; 30; 31; 30; 31; 31; 30; 31; 30; 31] 0.
Definition days_before_month (y m : Z) : Z :=
  nth (Z.to_nat m) [-1; 0; 31; 59; 90; 120; 151; 181; 212; 243; 273; 304; 334] 0
  + (if (2 <? m) && is_leap y then 1 else 0).
Definition ymd2ord (y m d : Z) : Z := days_before_year y + days_before_month y m + d.
(** CPython's Lib/datetime.py, _ord2ymd *)
Definition ord2ymd (n : Z) : Z * Z * Z :=
  let n := n - 1 in
  let n400 := n / 146097 in let n := n mod 146097 in
  let year := n400 * 400 + 1 in
  let n100 := n / 36524 in let n := n mod 36524 in
  let n4 := n / 1461 in let n := n mod 1461 in
  let n1 := n / 365 in let n := n mod 365 in
  let year := year + n100 * 100 + n4 * 4 + n1 in
  if (n1 =? 4) || (n100 =? 4) then (year - 1, 12, 31)
  else
    let leap := (n1 =? 3) && (negb (n4 =? 24) || (n100 =? 3)) in
    let month := (n + 50) / 32 in
    let before m := nth (Z.to_nat m) [-1; 0; 31; 59; 90; 120; 151; 181; 212; 243; 273; 304; 334] 0
                    + (if (2 <? m) && leap then 1 else 0) in
    let month := if n <? before month then month - 1 else month in
    (year, month, n - before month + 1).
Definition max_ord : Z := 3652059.

(** A datetime without a zone: the seconds since the beginning of day 0 of the calendar (the
    microseconds are always 0 here: [msec] is never given, strptime.py:189, datetemplate.py:354). *)
Definition naive (y m d h mi s : Z) : Z := ymd2ord y m d * 86400 + h * 3600 + mi * 60 + s.
(** datetime.datetime(y, m, d, h, mi, s) *)
Definition mk_datetime (y m d h mi s : Z) : res Z :=
  if (1 <=? y) && (y <=? 9999) && (1 <=? m) && (m <=? 12) && (1 <=? d) && (d <=? days_in_month y m)
     && (0 <=? h) && (h <=? 23) && (0 <=? mi) && (mi <=? 59) && (0 <=? s) && (s <=? 59)
  then Ok (naive y m d h mi s) else Err ValueErr.
(** datetime +/- timedelta *)
Definition shift (t dt : Z) : res Z :=
  if (1 <=? (t + dt) / 86400) && ((t + dt) / 86400 <=? max_ord) then Ok (t + dt) else Err OverflowErr.
(** datetime.fromordinal, as year, month and day *)
Definition from_ordinal (n : Z) : res (Z * Z * Z) :=
  if (1 <=? n) && (n <=? max_ord) then Ok (ord2ymd n) else Err ValueErr.
(** datetime.replace(year=, month=, day=) *)
Definition replace_date (t y m d : Z) : res Z :=
  if (1 <=? y) && (y <=? 9999) && (1 <=? m) && (m <=? 12) && (1 <=? d) && (d <=? days_in_month y m)
  then Ok (ymd2ord y m d * 86400 + t mod 86400) else Err ValueErr.
(** date.weekday(): Monday is 0 *)
Definition weekday (n : Z) : Z := (n + 6) mod 7.
(** calendar.timegm: seconds since 1970-01-01 *)
Definition timegm (t : Z) : Z := t - 719163 * 86400.
(** _strptime._calc_julian_from_U_or_W *)
Definition julian_of_week (y week dow : Z) (starts_monday : bool) : res Z :=
  if (1 <=? y) && (y <=? 9999) then
    let first := weekday (ymd2ord y 1 1) in
    let first := if starts_monday then first else (first + 1) mod 7 in
    let dow := if starts_monday then dow else (dow + 1) mod 7 in
    let week0 := (7 - first) mod 7 in
    Ok (if week =? 0 then 1 + dow - first else 1 + (week0 + 7 * (week - 1)) + dow)
  else Err ValueErr.

(** * Reading numbers and names *)
Definition is_blank (c : ascii) : bool :=
  let k := char_code c in (k =? 32) || ((9 <=? k) && (k <=? 13)) || ((28 <=? k) && (k <=? 31)).
Fixpoint lstrip (s : text) : text :=
  match s with c :: r => if is_blank c then lstrip r else s | [] => [] end.
(** Python's int(text): blanks around, a sign, digits.  ASCII only, and without the "_" Python
    allows between digits (no group of a date pattern can hold one). *)
Definition py_int (s : text) : res Z :=
  value_of
    match rev (lstrip (rev (lstrip s))) with
    | "-"%char :: r => option_map Z.opp (read 10 r)
    | "+"%char :: r => read 10 r
    | r => read 10 r
    end.
Definition lower_char (c : ascii) : ascii :=
  let k := char_code c in if (65 <=? k) && (k <=? 90) then ascii_of_N (Z.to_N (k + 32)) else c.
Definition lower (s : text) : text := map lower_char s.
(** list.index *)
Fixpoint index_of (t : text) (l : list text) (i : Z) : res Z :=
  match l with
  | [] => Err ValueErr
  | u :: r => if eqb t u then Ok i else index_of t r (i + 1)
  end.
(** _strptime.LocaleTime, for the C locale *)
Definition f_month : list text := map tx
  [""; "january"; "february"; "march"; "april"; "may"; "june"; "july"; "august"; "september";
   "october"; "november"; "december"].
Definition a_month : list text := map tx
  [""; "jan"; "feb"; "mar"; "apr"; "may"; "jun"; "jul"; "aug"; "sep"; "oct"; "nov"; "dec"].
Definition f_weekday : list text := map tx
  ["monday"; "tuesday"; "wednesday"; "thursday"; "friday"; "saturday"; "sunday"].
Definition a_weekday : list text := map tx ["mon"; "tue"; "wed"; "thu"; "fri"; "sat"; "sun"].

(** * Time zones *)
(** strptime.py:343-380, TZ_STR: here with the offset in minutes *)
Definition tz_lines : list (Z * list string) :=
  [ (-720, ["Y"]);
    (-660, ["X"; "NUT"; "SST"]);
    (-600, ["W"; "CKT"; "HAST"; "HST"; "TAHT"; "TKT"]);
    (-540, ["V"; "AKST"; "GAMT"; "GIT"; "HADT"; "HNY"]);
    (-480, ["U"; "AKDT"; "CIST"; "HAY"; "HNP"; "PST"; "PT"]);
    (-420, ["T"; "HAP"; "HNR"; "MST"; "PDT"]);
    (-360, ["S"; "CST"; "EAST"; "GALT"; "HAR"; "HNC"; "MDT"]);
    (-300, ["R"; "CDT"; "COT"; "EASST"; "ECT"; "EST"; "ET"; "HAC"; "HNE"; "PET"]);
    (-240, ["Q"; "AST"; "BOT"; "CLT"; "COST"; "EDT"; "FKT"; "GYT"; "HAE"; "HNA"; "PYT"]);
    (-180, ["P"; "ADT"; "ART"; "BRT"; "CLST"; "FKST"; "GFT"; "HAA"; "PMST"; "PYST"; "SRT"; "UYT"; "WGT"]);
    (-120, ["O"; "BRST"; "FNT"; "PMDT"; "UYST"; "WGST"]);
    (-60, ["N"; "AZOT"; "CVT"; "EGT"]);
    (0, ["Z"; "EGST"; "GMT"; "UTC"; "WET"; "WT"]);
    (60, ["A"; "CET"; "DFT"; "WAT"; "WEDT"; "WEST"]);
    (120, ["B"; "CAT"; "CEDT"; "CEST"; "EET"; "SAST"; "WAST"]);
    (180, ["C"; "EAT"; "EEDT"; "EEST"; "IDT"; "MSK"]);
    (240, ["D"; "AMT"; "AZT"; "GET"; "GST"; "KUYT"; "MSD"; "MUT"; "RET"; "SAMT"; "SCT"]);
    (300, ["E"; "AMST"; "AQTT"; "AZST"; "HMT"; "MAWT"; "MVT"; "PKT"; "TFT"; "TJT"; "TMT"; "UZT"; "YEKT"]);
    (360, ["F"; "ALMT"; "BIOT"; "BTT"; "IOT"; "KGT"; "NOVT"; "OMST"; "YEKST"]);
    (420, ["G"; "CXT"; "DAVT"; "HOVT"; "ICT"; "KRAT"; "NOVST"; "OMSST"; "THA"; "WIB"]);
    (480, ["H"; "ACT"; "AWST"; "BDT"; "BNT"; "CAST"; "HKT"; "IRKT"; "KRAST"; "MYT"; "PHT"; "SGT"; "ULAT"; "WITA"; "WST"]);
    (540, ["I"; "AWDT"; "IRKST"; "JST"; "KST"; "PWT"; "TLT"; "WDT"; "WIT"; "YAKT"]);
    (600, ["K"; "AEST"; "ChST"; "PGT"; "VLAT"; "YAKST"; "YAPT"]);
    (660, ["L"; "AEDT"; "LHDT"; "MAGT"; "NCT"; "PONT"; "SBT"; "VLAST"; "VUT"]);
    (720, ["M"; "ANAST"; "ANAT"; "FJT"; "GILT"; "MAGST"; "MHT"; "NZST"; "PETST"; "PETT"; "TVT"; "WFT"]);
    (780, ["FJST"; "NZDT"]);
    (690, ["NFT"]);
    (630, ["ACDT"; "LHST"]);
    (570, ["ACST"]);
    (390, ["CCT"; "MMT"]);
    (345, ["NPT"]);
    (330, ["SLT"]);
    (270, ["AFT"; "IRDT"]);
    (210, ["IRST"]);
    (-150, ["HAT"; "NDT"]);
    (-210, ["HNT"; "NST"; "NT"]);
    (-270, ["HLV"; "VET"]);
    (-570, ["MART"; "MIT"]) ].
(** strptime.py:342 and 382-391, TZ_ABBR_OFFS (its keys '' and None are handled in [abbr_offs]) *)
Definition tz_abbr : list (text * Z) :=
  fold_left (fun d l => fold_left (fun d z => dset (tx z) (fst l) d) (snd l) d) tz_lines [].
Definition abbr_offs (tz : option text) : res Z :=
  match tz with
  | None => Ok 0
  | Some z => match dget z tz_abbr with Some o => Ok o | None => if eqb z [] then Ok 0 else Err KeyErr end
  end.

Definition is_upper (c : ascii) : bool := let k := char_code c in (65 <=? k) && (k <=? 90).
Definition newline : ascii := ascii_of_nat 10.
(** the [$] of a regexp: the end, or a newline at the end *)
Definition at_end (s : text) : bool := match s with [] => true | [c] => eqb c newline | _ => false end.
(** strptime.py:30-31, the second group of FIXED_OFFSET_TZ_RE and the end:
    an optional [[+-][01]\d(?::?\d{2})?], then [$]; None if this does not match *)
Definition tz_offs_group (s : text) : option (option text) :=
  if at_end s then Some None
  else match s with
       | sg :: h1 :: h2 :: r =>
           if inb sg ["+"; "-"]%char && inb h1 ["0"; "1"]%char && is_digit h2 then
             if at_end r then Some (Some [sg; h1; h2])
             else match r with
                  | a :: b :: c :: r' =>
                      if eqb a ":"%char && is_digit b && is_digit c && at_end r' then Some (Some [sg; h1; h2; a; b; c])
                      else if is_digit a && is_digit b && at_end (c :: r') then Some (Some [sg; h1; h2; a; b])
                      else None
                  | [a; b] => if is_digit a && is_digit b then Some (Some [sg; h1; h2; a; b]) else None
                  | _ => None
                  end
           else None
       | _ => None
       end.
Fixpoint upper_run (s : text) : text :=
  match s with c :: r => if is_upper c then c :: upper_run r else [] | [] => [] end.
(** strptime.py:30-31 and 153, FIXED_OFFSET_TZ_RE.match(tz).groups().  A sign is no capital
    letter, so the first group can only be all the capitals at the beginning (one, or three to
    five of them), or nothing if there are none. *)
Definition tz_groups (s : text) : option (option text * option text) :=
  let a := upper_run s in
  let n := length a in
  if (n =? 0)%nat || (n =? 1)%nat || ((3 <=? n)%nat && (n <=? 5)%nat) then
    match tz_offs_group (skipn n s) with
    | Some o => Some (if (n =? 0)%nat then None else Some a, o)
    | None => None
    end
  else None.
(** strptime.py:176-187, zone2offset of the pair of groups *)
Definition zone_of_groups (tz : option text) (tzo : option text) : res Z :=
  match tzo with
  | None => abbr_offs tz
  | Some tzo =>
      if (length tzo =? 0)%nat then abbr_offs tz
      else if (length tzo <=? 3)%nat then
        bind (abbr_offs tz) (fun a => bind (py_int tzo) (fun h => Ok (a + h * 60)))
      else
        let sign := if eqb (nth 0 tzo " "%char) "-"%char then -1 else 1 in
        let hh := firstn 2 (skipn 1 tzo) in
        let mm := if negb (eqb (nth 3 tzo " "%char) ":"%char) then firstn 2 (skipn 3 tzo) else firstn 2 (skipn 4 tzo) in
        bind (abbr_offs tz) (fun a => bind (py_int hh) (fun h => bind (py_int mm) (fun m => Ok (a + sign * (h * 60 + m)))))
  end.
(** strptime.py:141-158, validateTimeZone of a text (None stays None), in minutes *)
Definition validate_tz (s : text) : res Z :=
  match tz_groups s with
  | None => Err ValueErr
  | Some (tz, tzo) => zone_of_groups tz tzo
  end.

(** * The fields of a date *)
(** The groups of a match: names and what they matched; None for a group that did not take part. *)
Definition groups := list (string * option text).
(** The local variables of reGroupDictStrptime that hold a number; not there: None (strptime.py:207-210). *)
Definition vars := list (string * Z).
Definition vars0 : vars := [("hour", 0); ("minute", 0); ("second", 0)].
(** strptime.py:231-247: the hour of a 12-hour clock *)
Definition hour12 (fd : groups) (h : Z) : res Z :=
  bind match dget "p" fd with
       | None => Ok []
       | Some None => Err AttrErr
       | Some (Some t) => Ok (lower t)
       end
       (fun ampm =>
          if inb ampm [[]; tx "am"] then Ok (if h =? 12 then 0 else h)
          else if eqb ampm (tx "pm") then Ok (if h =? 12 then h else h + 12)
          else Ok h).
(** strptime.py:211-274: what one group assigns *)
Definition field (fd : groups) (key : string) (val : text) (v : vars) : res vars :=
  if eqb key "y" then bind (py_int val) (fun n => Ok (dset "year" (if n <=? 2000 then n + 2000 else n) v))
  else if eqb key "Y" then bind (py_int val) (fun n => Ok (dset "year" n v))
  else if eqb key "m" then bind (py_int val) (fun n => Ok (dset "month" n v))
  else if eqb key "B" then bind (index_of (lower val) f_month 0) (fun n => Ok (dset "month" n v))
  else if eqb key "b" then bind (index_of (lower val) a_month 0) (fun n => Ok (dset "month" n v))
  else if eqb key "d" then bind (py_int val) (fun n => Ok (dset "day" n v))
  else if eqb key "H" then bind (py_int val) (fun n => Ok (dset "hour" n v))
  else if eqb key "I" then bind (py_int val) (fun n => bind (hour12 fd n) (fun h => Ok (dset "hour" h v)))
  else if eqb key "M" then bind (py_int val) (fun n => Ok (dset "minute" n v))
  else if eqb key "S" then bind (py_int val) (fun n => Ok (dset "second" n v))
  else if eqb key "A" then bind (index_of (lower val) f_weekday 0) (fun n => Ok (dset "weekday" n v))
  else if eqb key "a" then bind (index_of (lower val) a_weekday 0) (fun n => Ok (dset "weekday" n v))
  else if eqb key "w" then
    bind (py_int val) (fun n => let n := n - 1 in Ok (dset "weekday" (if n <? 0 then 6 else n) v))
  else if eqb key "j" then bind (py_int val) (fun n => Ok (dset "julian" n v))
  else if eqb key "U" || eqb key "W" then
    bind (py_int val) (fun n =>
      Ok (dset "week_of_year_start" (if eqb key "U" then 6 else 0) (dset "week_of_year" n v)))
  else if eqb key "z" || eqb key "Z" then
    if inb val [tx "Z"; tx "UTC"; tx "GMT"] then Ok (dset "tzoffset" 0 v)
    else bind (validate_tz val) (fun o => Ok (dset "tzoffset" o v))
  else Ok v.
(** strptime.py:211-212 *)
Fixpoint fields (fd l : groups) (v : vars) : res vars :=
  match l with
  | [] => Ok v
  | (_, None) :: r => fields fd r v
  | (k, Some t) :: r => bind (field fd k t v) (fields fd r)
  end.

(** What is outside: MyTime.now() as a date without zone, cut to whole seconds (a date of whole
    seconds is later than it exactly if it is later than it with its microseconds), and time.mktime. *)
Record world := mkW { w_now : Z; w_mktime : Z -> res Z }.
Definition year_of (t : Z) : Z := let '(y, _, _) := ord2ymd (t / 86400) in y.
Definition month_of (t : Z) : Z := let '(_, m, _) := ord2ymd (t / 86400) in m.
Definition day_of (t : Z) : Z := let '(_, _, d) := ord2ymd (t / 86400) in d.

(** strptime.py:283-298: month and day from the day of the year, or the week and the day of the week *)
Definition by_julian (v : vars) (year : Z) : res (Z * option Z * option Z) :=
  let month := dget "month" v in
  let day := dget "day" v in
  match month, day with
  | Some _, Some _ => Ok (year, month, day)
  | _, _ =>
      bind match dget "julian" v, dget "week_of_year" v, dget "weekday" v with
           | Some j, _, _ => Ok (Some j)
           | None, Some w, Some d =>
               bind (julian_of_week year w d (eqb (dget "week_of_year_start" v) (Some 0))) (fun j => Ok (Some j))
           | None, _, _ => Ok None
           end
           (fun j => match j with
                     | None => Ok (year, month, day)
                     | Some j =>
                         if (1 <=? year) && (year <=? 9999) then
                           bind (from_ordinal (j - 1 + ymd2ord year 1 1))
                                (fun ymd => let '(y, m, d) := ymd in Ok (y, Some m, Some d))
                         else Err ValueErr
                     end)
  end.
(** strptime.py:276-333: the time; [now] is asked at most once *)
Definition resolve (w : world) (v : vars) (default_tz : option Z) : res Z :=
  let now := w_now w in
  let '(year, assume_year) := match dget "year" v with Some y => (y, false) | None => (year_of now, true) end in
  bind (by_julian v year) (fun ymd =>
  let '(year, month, day) := ymd in
  let '(month, day, assume_today) :=
    match month, day with
    | None, None => (Some (month_of now), Some (day_of now), true)
    | _, _ => (month, day, false)
    end in
  match month, day, dget "hour" v, dget "minute" v, dget "second" v with
  | Some month, Some day, Some hour, Some minute, Some second =>
      bind (mk_datetime year month day hour minute second) (fun t =>
      let tz := match dget "tzoffset" v with Some o => Some o | None => default_tz end in
      bind (match tz with Some o => shift t (- (o * 60)) | None => Ok t end) (fun t =>
      bind (if assume_today && (now <? t) then shift t (-86400) else Ok t) (fun t =>
      bind (if assume_year then
              bind (shift now 86400) (fun tomorrow =>
              if tomorrow <? t then replace_date t (year - 1) month day else Ok t)
            else Ok t) (fun t =>
      match tz with Some _ => Ok (timegm t) | None => w_mktime w t end))))
  | _, _, _, _, _ => Err TypeErr
  end).
(** strptime.py:189-339 (without [msec]); [default_tz] as validateTimeZone has made it *)
Definition strptime (w : world) (fd : groups) (default_tz : option Z) : res Z :=
  bind (fields fd fd vars0) (fun v => resolve w v default_tz).

(** datetemplate.py:396-410, DateTai64n.getDate of what its pattern matched: [@] and 24 lower-case
    hexadecimal digits *)
Definition tai64n (value : text) : res Z := value_of (read 16 (firstn 15 (skipn 2 value))).
