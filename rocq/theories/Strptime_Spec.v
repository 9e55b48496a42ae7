(** What dates mean, independently of the code: the calendar by counting days, what the fields of
    a date say, and what a time zone says. *)
From Verif Require Import Base Text.
From Coq Require Import ZifyBool ZifyNat.
Local Open Scope string_scope. Local Open Scope list_scope. Local Open Scope Z_scope.

(** * The calendar *)
(** every fourth year, but of the full centuries only every fourth *)
Definition leap (y : Z) : Prop := (4 | y) /\ ((100 | y) -> (400 | y)).
Record date := mkD { year : Z; month : Z; day : Z }.
(** how many days a month has *)
Definition month_has (y m n : Z) : Prop :=
  (In m [4; 6; 9; 11] /\ n = 30) \/ (In m [1; 3; 5; 7; 8; 10; 12] /\ n = 31)
  \/ (m = 2 /\ leap y /\ n = 29) \/ (m = 2 /\ ~ leap y /\ n = 28).
Definition is_date (d : date) : Prop :=
  exists n, month_has (year d) (month d) n /\ 1 <= day d <= n.
(** the day after: in the same month, or the first of the next one *)
Definition day_after (d d' : date) : Prop :=
  is_date d /\ is_date d' /\
  (d' = mkD (year d) (month d) (day d + 1)
   \/ (month_has (year d) (month d) (day d) /\ month d < 12 /\ d' = mkD (year d) (month d + 1) 1)
   \/ (month_has (year d) (month d) (day d) /\ month d = 12 /\ d' = mkD (year d + 1) 1 1)).
(** [d] is [n] days after the first of January 1970, counted day by day (before it if [n] is negative) *)
Inductive epoch_days : date -> Z -> Prop :=
  | ed_epoch : epoch_days (mkD 1970 1 1) 0
  | ed_next d d' n : epoch_days d n -> day_after d d' -> epoch_days d' (n + 1)
  | ed_prev d d' n : epoch_days d n -> day_after d' d -> epoch_days d' (n - 1).
(** a time of the day *)
Record clock := mkC { hour : Z; minute : Z; second : Z }.
Definition is_clock (c : clock) : Prop := 0 <= hour c < 24 /\ 0 <= minute c < 60 /\ 0 <= second c < 60.
Definition clock_seconds (c : clock) : Z := hour c * 3600 + minute c * 60 + second c.
(** [t] seconds after the beginning of 1970 a clock at Greenwich shows this date and time *)
Definition shows (d : date) (c : clock) (t : Z) : Prop :=
  exists n, epoch_days d n /\ is_clock c /\ t = n * 86400 + clock_seconds c.
(** The first of January 1970 was a Thursday; Monday is 0. *)
Definition weekday_of (d : date) (w : Z) : Prop := exists n, epoch_days d n /\ w = (n + 3) mod 7.
(** [d] is the [j]-th day of the year [y]; it may lie beyond its end *)
Definition day_of_year (y j : Z) (d : date) : Prop :=
  exists n, epoch_days (mkD y 1 1) n /\ epoch_days d (n + j - 1).
(** [l] lists the days of the year of [d], up to [d], that are the weekday [w] *)
Definition so_far (d : date) (w : Z) (l : list date) : Prop :=
  NoDup l /\ forall x, In x l <-> weekday_of x w /\ year x = year d /\ exists n k, epoch_days x n /\ epoch_days d k /\ n <= k.

(** * Numbers and names in a text *)
(** the number [n], with zeros before it, and blanks before these *)
Definition numeral (t : text) (n : Z) : Prop :=
  0 <= n /\ exists i j, t = repeat " "%char i ++ repeat "0"%char j ++ dec n.
(** the same letters, in whatever case *)
Definition same_letters (t u : text) : Prop :=
  Forall2 (fun a b => a = b \/ (char_code a + 32 = char_code b /\ 65 <= char_code a <= 90)) t u.
Definition month_names : list (Z * string * string) :=
  [(1, "january", "jan"); (2, "february", "feb"); (3, "march", "mar"); (4, "april", "apr");
   (5, "may", "may"); (6, "june", "jun"); (7, "july", "jul"); (8, "august", "aug");
   (9, "september", "sep"); (10, "october", "oct"); (11, "november", "nov"); (12, "december", "dec")].
Definition day_names : list (Z * string * string) :=
  [(0, "monday", "mon"); (1, "tuesday", "tue"); (2, "wednesday", "wed"); (3, "thursday", "thu");
   (4, "friday", "fri"); (5, "saturday", "sat"); (6, "sunday", "sun")].

(** * Time zones *)
(** The zone abbreviations one can write (one capital letter, or three to five), with their offset
    from UTC in minutes. *)
Definition zone_names : list (string * Z) :=
  [("A", 60); ("ACDT", 630); ("ACST", 570); ("ACT", 480); ("ADT", -180); ("AEDT", 660);
   ("AEST", 600); ("AFT", 270); ("AKDT", -480); ("AKST", -540); ("ALMT", 360); ("AMST", 300);
   ("AMT", 240); ("ANAST", 720); ("ANAT", 720); ("AQTT", 300); ("ART", -180); ("AST", -240);
   ("AWDT", 540); ("AWST", 480); ("AZOT", -60); ("AZST", 300); ("AZT", 240); ("B", 120);
   ("BDT", 480); ("BIOT", 360); ("BNT", 480); ("BOT", -240); ("BRST", -120); ("BRT", -180);
   ("BTT", 360); ("C", 180); ("CAST", 480); ("CAT", 120); ("CCT", 390); ("CDT", -300);
   ("CEDT", 120); ("CEST", 120); ("CET", 60); ("CIST", -480); ("CKT", -600); ("CLST", -180);
   ("CLT", -240); ("COST", -240); ("COT", -300); ("CST", -360); ("CVT", -60); ("CXT", 420);
   ("D", 240); ("DAVT", 420); ("DFT", 60); ("E", 300); ("EASST", -300); ("EAST", -360);
   ("EAT", 180); ("ECT", -300); ("EDT", -240); ("EEDT", 180); ("EEST", 180); ("EET", 120);
   ("EGST", 0); ("EGT", -60); ("EST", -300); ("F", 360); ("FJST", 780); ("FJT", 720);
   ("FKST", -180); ("FKT", -240); ("FNT", -120); ("G", 420); ("GALT", -360); ("GAMT", -540);
   ("GET", 240); ("GFT", -180); ("GILT", 720); ("GIT", -540); ("GMT", 0); ("GST", 240);
   ("GYT", -240); ("H", 480); ("HAA", -180); ("HAC", -300); ("HADT", -540); ("HAE", -240);
   ("HAP", -420); ("HAR", -360); ("HAST", -600); ("HAT", -150); ("HAY", -480); ("HKT", 480);
   ("HLV", -270); ("HMT", 300); ("HNA", -240); ("HNC", -360); ("HNE", -300); ("HNP", -480);
   ("HNR", -420); ("HNT", -210); ("HNY", -540); ("HOVT", 420); ("HST", -600); ("I", 540);
   ("ICT", 420); ("IDT", 180); ("IOT", 360); ("IRDT", 270); ("IRKST", 540); ("IRKT", 480);
   ("IRST", 210); ("JST", 540); ("K", 600); ("KGT", 360); ("KRAST", 480); ("KRAT", 420);
   ("KST", 540); ("KUYT", 240); ("L", 660); ("LHDT", 660); ("LHST", 630); ("M", 720);
   ("MAGST", 720); ("MAGT", 660); ("MART", -570); ("MAWT", 300); ("MDT", -360); ("MHT", 720);
   ("MIT", -570); ("MMT", 390); ("MSD", 240); ("MSK", 180); ("MST", -420); ("MUT", 240);
   ("MVT", 300); ("MYT", 480); ("N", -60); ("NCT", 660); ("NDT", -150); ("NFT", 690);
   ("NOVST", 420); ("NOVT", 360); ("NPT", 345); ("NST", -210); ("NUT", -660); ("NZDT", 780);
   ("NZST", 720); ("O", -120); ("OMSST", 420); ("OMST", 360); ("P", -180); ("PDT", -420);
   ("PET", -300); ("PETST", 720); ("PETT", 720); ("PGT", 600); ("PHT", 480); ("PKT", 300);
   ("PMDT", -120); ("PMST", -180); ("PONT", 660); ("PST", -480); ("PWT", 540); ("PYST", -180);
   ("PYT", -240); ("Q", -240); ("R", -300); ("RET", 240); ("S", -360); ("SAMT", 240);
   ("SAST", 120); ("SBT", 660); ("SCT", 240); ("SGT", 480); ("SLT", 330); ("SRT", -180);
   ("SST", -660); ("T", -420); ("TAHT", -600); ("TFT", 300); ("THA", 420); ("TJT", 300);
   ("TKT", -600); ("TLT", 540); ("TMT", 300); ("TVT", 720); ("U", -480); ("ULAT", 480);
   ("UTC", 0); ("UYST", -120); ("UYT", -180); ("UZT", 300); ("V", -540); ("VET", -270);
   ("VLAST", 660); ("VLAT", 600); ("VUT", 660); ("W", -600); ("WAST", 120); ("WAT", 60);
   ("WDT", 540); ("WEDT", 60); ("WEST", 60); ("WET", 0); ("WFT", 720); ("WGST", -120);
   ("WGT", -180); ("WIB", 420); ("WIT", 540); ("WITA", 480); ("WST", 480); ("X", -660);
   ("Y", -720); ("YAKST", 600); ("YAKT", 540); ("YAPT", 600); ("YEKST", 360); ("YEKT", 300);
   ("Z", 0)].
Definition abbreviation (a : text) (k : Z) : Prop := exists s, In (s, k) zone_names /\ a = tx s.
Definition two_digits (n : Z) : text := [digit_char (n / 10); digit_char (n mod 10)].
(** hours and minutes, as hh, hhmm or hh:mm *)
Inductive span : text -> Z -> Prop :=
  | sp_h h : 0 <= h < 20 -> span (two_digits h) (60 * h)
  | sp_hm h m : 0 <= h < 20 -> 0 <= m < 100 -> span (two_digits h ++ two_digits m) (60 * h + m)
  | sp_h_m h m : 0 <= h < 20 -> 0 <= m < 100 -> span (two_digits h ++ ":"%char :: two_digits m) (60 * h + m).
(** an offset, ahead of UTC or behind it, or none *)
Inductive offset : text -> Z -> Prop :=
  | of_none : offset [] 0
  | of_ahead t n : span t n -> offset ("+"%char :: t) n
  | of_behind t n : span t n -> offset ("-"%char :: t) (- n).
(** an abbreviation or none, then an offset or none; these are added *)
Inductive zone : text -> Z -> Prop :=
  | zo_offset t n : offset t n -> zone t n
  | zo_abbr a k t n : abbreviation a k -> offset t n -> zone (a ++ t) (k + n).

(** * The groups of a date pattern *)
Inductive what := Year | Month | Day | Hour | Minute | Second | Weekday | DayOfYear | Week | Zone.
(** the part of the day for a 12-hour clock *)
Inductive half := Morning | Afternoon.
Definition on_12_hours (h : half) (n : Z) : Z :=
  match h with Morning => n mod 12 | Afternoon => 12 + n mod 12 end.
(** What a group with this name and text says.  [hf] is the part of the day. *)
Inductive says (hf : half) : string -> text -> what -> Z -> Prop :=
  | sy_Y t n : numeral t n -> says hf "Y" t Year n
  | sy_y t n : numeral t n -> n < 100 -> says hf "y" t Year (2000 + n)
  | sy_m t n : numeral t n -> says hf "m" t Month n
  | sy_B t n a b : In (n, a, b) month_names -> same_letters t (tx a) -> says hf "B" t Month n
  | sy_b t n a b : In (n, a, b) month_names -> same_letters t (tx b) -> says hf "b" t Month n
  | sy_d t n : numeral t n -> says hf "d" t Day n
  | sy_H t n : numeral t n -> says hf "H" t Hour n
  | sy_I t n : numeral t n -> 1 <= n <= 12 -> says hf "I" t Hour (on_12_hours hf n)
  | sy_M t n : numeral t n -> says hf "M" t Minute n
  | sy_S t n : numeral t n -> says hf "S" t Second n
  | sy_A t n a b : In (n, a, b) day_names -> same_letters t (tx a) -> says hf "A" t Weekday n
  | sy_a t n a b : In (n, a, b) day_names -> same_letters t (tx b) -> says hf "a" t Weekday n
  | sy_w t n : numeral t n -> n <= 6 -> says hf "w" t Weekday ((n + 6) mod 7)
  | sy_j t n : numeral t n -> says hf "j" t DayOfYear n
  | sy_U t n : numeral t n -> says hf "U" t Week n
  | sy_W t n : numeral t n -> says hf "W" t Week n
  | sy_z t n : zone t n -> says hf "z" t Zone n
  | sy_Z t n : zone t n -> says hf "Z" t Zone n.
(** groups that say nothing about the date by themselves *)
Definition silent (k : string) : Prop :=
  ~ In k ["Y"; "y"; "m"; "B"; "b"; "d"; "H"; "I"; "M"; "S"; "A"; "a"; "w"; "j"; "U"; "W"; "z"; "Z"].
(** before noon unless the line says "pm" *)
Definition half_of (fd : list (string * option text)) (hf : half) : Prop :=
  match hf with
  | Morning => (forall o, ~ In ("p", o) fd) \/ exists t, In ("p", Some t) fd /\ (t = [] \/ same_letters t (tx "am"))
  | Afternoon => exists t, In ("p", Some t) fd /\ same_letters t (tx "pm")
  end.
(** The groups, each name once, say what [d] says: at most one thing of each kind. *)
Definition line_says (fd : list (string * option text)) (d : what -> option Z) : Prop :=
  NoDup (map fst fd) /\
  exists hf, ((exists t, In ("I", Some t) fd) -> half_of fd hf) /\
    (forall k t, In (k, Some t) fd -> silent k \/ exists w n, says hf k t w n /\ d w = Some n) /\
    (forall w n, d w = Some n -> exists k t, In (k, Some t) fd /\ says hf k t w n) /\
    (forall k t k' t' w n n', In (k, Some t) fd -> In (k', Some t') fd ->
       says hf k t w n -> says hf k' t' w n' -> k = k').

(** what is not said about the time of the day is zero *)
Definition clock_of (d : what -> option Z) : clock :=
  let or0 o := match o with Some n => n | None => 0 end in
  mkC (or0 (d Hour)) (or0 (d Minute)) (or0 (d Second)).
