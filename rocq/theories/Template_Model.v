(** Model of fail2ban/server/datetemplate.py, DatePatternRegex: how a date pattern becomes a regular
    expression, how the date is found with it in a line, and which time it is; with the fields of
    fail2ban/server/strptime.py:27-113.

    Modelled are patterns that consist of fields, plain characters, escaped characters and [.],
    with [{UNB}], [{^LN-BEG}], [^] or [**] before and [$] or [**] after them.  Other regular expressions in a
    pattern (groups, sets, repetitions) and the fields %Z %ExZ %Exz %c %x %X %G %u %V are outside.
    Characters are bytes; the classes of Python's Unicode tables are those of ASCII. *)
From Coq Require Import ZifyBool ZifyNat.
From Verif Require Import Base Text Strptime_Model.
Local Open Scope string_scope. Local Open Scope list_scope. Local Open Scope nat_scope.

(** * Regular expressions without groups, and in which order Python tries the ways to match one *)
Inductive re :=
  | Eps
  | Set_ (f : ascii -> bool)               (* one character of a set *)
  | Run (lo hi : nat) (f : ascii -> bool)  (* [set]{lo,hi} *)
  | Cat (a b : re)
  | Alt (a b : re)
  | Opt (a : re).                          (* a? *)
Definition upper_char (c : ascii) : ascii :=
  let n := char_code c in if ((97 <=? n) && (n <=? 122))%Z then ascii_of_N (Z.to_N (n - 32)) else c.
(** re.IGNORECASE, for sets *)
Definition accepts (ci : bool) (f : ascii -> bool) (c : ascii) : bool :=
  if ci then f (lower_char c) || f (upper_char c) else f c.
(** how many characters in front are of the set *)
Fixpoint run_of (f : ascii -> bool) (s : text) : nat :=
  match s with c :: r => if f c then S (run_of f r) else 0 | [] => 0 end.
(** [n, n-1, ..., lo] *)
Fixpoint down (lo n : nat) : list nat :=
  if n <? lo then [] else n :: match n with S m => down lo m | O => [] end.
(** Python's re: the lengths of what [r] can match at the beginning of [s], in the order in which they are tried *)
Fixpoint lens (ci : bool) (r : re) (s : text) : list nat :=
  match r with
  | Eps => [0]
  | Set_ f => match s with c :: _ => if accepts ci f c then [1] else [] | [] => [] end
  | Run lo hi f => down lo (Nat.min hi (run_of (accepts ci f) s))
  | Cat a b => flat_map (fun n => map (Nat.add n) (lens ci b (skipn n s))) (lens ci a s)
  | Alt a b => lens ci a s ++ lens ci b s
  | Opt a => lens ci a s ++ [0]
  end.

(** * The fields: strptime.py:27-113 *)
Definition one (c : ascii) : re := Set_ (fun x => eqb x c).
Definition D : re := Set_ is_digit.
(** [[a-b]] for digits *)
Definition R (a b : Z) : re := Set_ (fun c => (48 + a <=? char_code c) && (char_code c <=? 48 + b))%Z.
Fixpoint word (s : text) : re := match s with [] => Eps | [c] => one c | c :: r => Cat (one c) (word r) end.
(** Not there for an empty list: the set of no character *)
Fixpoint any (l : list re) : re := match l with [] => Set_ (fun _ => false) | [r] => r | r :: t => Alt r (any t) end.
Fixpoint seq_ (l : list re) : re := match l with [] => Eps | [r] => r | r :: t => Cat r (seq_ t) end.
Definition words_of (l : list string) : re := any (map (fun s => word (tx s)) l).
Inductive token :=
  | Ta | TA | Tb | TB | Tp | Td | Tm | TY | Ty | TH | TI | TM | TS | Tf | Tj | TU | TW | Tw | Tz | Tk | Tl
  | Exd | Exm | ExH | Exk | Exl | ExM | ExS | ExY | Exy.
(** strptime.py:77-112, _getYearCentRE(cent=(0,3), distance=3) and its call, with no alternate time (that of tests): the first three digits of
    the years from 2000 on that it lists, up to three years from [y], the year in which the process started.
    [grp] only factors common beginnings. *)
Definition decades (y : Z) : list text :=
  map (fun n => firstn 3 (dec n))
      ([y - 1; y + 3] ++ map (fun i => 2000 + 3 * Z.of_nat i) (seq 0 (Z.to_nat ((y - 2000 + 3) / 3))))%Z.
(** the regular expression in the group; [_strptime.TimeRE] (CPython's Lib/_strptime.py) where strptime.py
    does not overwrite it, with the names of the C locale *)
Definition token_re (y : Z) (t : token) : re :=
  match t with
  | Ta => words_of ["mon"; "tue"; "wed"; "thu"; "fri"; "sat"; "sun"]
  | TA => words_of ["wednesday"; "thursday"; "saturday"; "tuesday"; "monday"; "friday"; "sunday"]
  | Tb => words_of ["jan"; "feb"; "mar"; "apr"; "may"; "jun"; "jul"; "aug"; "sep"; "oct"; "nov"; "dec"]
  | TB => words_of ["september"; "february"; "november"; "december"; "january"; "october"; "august"; "march"; "april"; "june"; "july"; "may"]
  | Tp => words_of ["am"; "pm"]
  | Td => any [Cat (R 1 2) D; Cat (Opt (Set_ (fun c => eqb c "0"%char || eqb c " "%char))) (R 1 9); Cat (one "3") (R 0 1)]
  | Tm => any [Cat (Opt (one "0")) (R 1 9); Cat (one "1") (R 0 2)]
  | TY => Run 4 4 is_digit
  | Ty => Cat D D
  | TH => any [Cat (Opt (R 0 1)) D; Cat (one "2") (R 0 3)]
  | TI => any [Cat (one "1") (R 0 2); Cat (one "0") (R 1 9); R 1 9]
  | TM => Cat (Opt (R 0 5)) D
  | TS => any [Cat (Opt (R 0 5)) D; Cat (one "6") (R 0 1)]
  | Tf => Run 1 6 is_digit
  | Tj => any [seq_ [one "3"; one "6"; R 0 6]; seq_ [one "3"; R 0 5; D]; seq_ [R 1 2; D; D]; seq_ [one "0"; R 1 9; D];
               seq_ [one "0"; one "0"; R 1 9]; Cat (R 1 9) D; Cat (one "0") (R 1 9); R 1 9]
  | TU | TW => any [Cat (one "5") (R 0 3); Cat (R 0 4) D; D]
  | Tw => R 0 6
  | Tz => any [word (tx "Z"); word (tx "UTC"); word (tx "GMT");
               seq_ [Set_ (fun c => eqb c "+"%char || eqb c "-"%char); R 0 1; D; Opt (Cat (Opt (one ":")) (Run 2 2 is_digit))]]
  | Tk => Cat (Opt (R 0 2)) D
  | Tl => Cat (Opt (one "1")) D
  | Exd => any [Cat (R 1 2) D; Cat (one "0") (R 1 9); Cat (one "3") (R 0 1)]
  | Exm => any [Cat (one "0") (R 1 9); Cat (one "1") (R 0 2)]
  | ExH => any [Cat (R 0 1) D; Cat (one "2") (R 0 3)]
  | Exk => any [Cat (Opt (R 0 1)) D; Cat (one "2") (R 0 3)]
  | Exl => any [Cat (one "1") (R 0 2); D]
  | ExM => Cat (R 0 5) D
  | ExS => any [Cat (R 0 5) D; Cat (one "6") (R 0 1)]
  | ExY => Cat (any (map word (decades y))) D
  | Exy => Run 2 2 is_digit
  end.
(** the name of the group *)
Definition token_name (t : token) : string :=
  match t with
  | Ta => "a" | TA => "A" | Tb => "b" | TB => "B" | Tp => "p" | Td | Exd => "d" | Tm | Exm => "m"
  | TY | ExY => "Y" | Ty | Exy => "y" | TH | Tk | ExH | Exk => "H" | TI | Tl | Exl => "I" | TM | ExM => "M"
  | TS | ExS => "S" | Tf => "f" | Tj => "j" | TU => "U" | TW => "W" | Tw => "w" | Tz => "z"
  end.
(** an optional blank before the group: strptime.py:38-39, 66-67 *)
Definition blank_before (t : token) : bool := match t with Tk | Tl | Exk | Exl => true | _ => false end.
(** the characters after [%] that select the field *)
Definition keys : list (string * token) :=
  [("a", Ta); ("A", TA); ("b", Tb); ("B", TB); ("p", Tp); ("d", Td); ("m", Tm); ("Y", TY); ("y", Ty); ("H", TH); ("I", TI);
   ("M", TM); ("S", TS); ("f", Tf); ("j", Tj); ("U", TU); ("W", TW); ("w", Tw); ("z", Tz); ("k", Tk); ("l", Tl);
   ("Exd", Exd); ("Exm", Exm); ("ExH", ExH); ("Exk", Exk); ("Exl", Exl); ("ExM", ExM); ("ExS", ExS); ("ExY", ExY); ("Exy", Exy)].
Definition key_of (s : text) : option token := dget s (map (fun p => (tx (fst p), snd p)) keys).

(** * From the pattern to the template *)
Inductive item := Lit (c : ascii) | Any | Tok (t : token).
(** The results of setting a pattern: a template; or one that raises re.error at its first use
    (DateTemplate._compileRegex, datetemplate.py:155-165, compiles then); or a pattern that is not modelled,
    among these all with a [%] that begins no field (most are refused with a TypeError, datetemplate.py:352-353). *)
Inductive set_to (A : Type) := Template (a : A) | Broken | Outside.
Arguments Template {A}. Arguments Broken {A}. Arguments Outside {A}.
Definition is_alnum (c : ascii) : bool :=
  let n := char_code c in
  is_digit c || ((65 <=? n) && (n <=? 90))%Z || ((97 <=? n) && (n <=? 122))%Z.
Definition is_word (c : ascii) : bool := is_alnum c || eqb c "_"%char.
Definition newline : ascii := "010"%char.
(** characters with a meaning in regular expressions; [\n] because [.*?] of RE_GROUP does not match it *)
Definition special (c : ascii) : bool := inb c (newline :: tx "\.^$*+?(){}[]|").
Definition cons_item (i : item) (r : option (list item)) : option (list item) := option_map (cons i) r.
(** datetemplate.py:344-346, the substitution of [_patternRE] (strptime.py:115-120) and [fmt % timeRE]; then
    what the characters between the fields mean to re.compile *)
Fixpoint parse (s : text) : option (list item) :=
  match s with
  | [] => Some []
  | c :: r =>
      if eqb c "%"%char then
        match r with
        | [] => None
        | k1 :: r1 =>
            if eqb k1 "%"%char then cons_item (Lit "%"%char) (parse r1)
            else match key_of [k1] with
                 | Some t => cons_item (Tok t) (parse r1)
                 | None =>
                     match r1 with
                     | k2 :: k3 :: r3 =>
                         match key_of [k1; k2; k3] with
                         | Some t => cons_item (Tok t) (parse r3)
                         | None => None
                         end
                     | _ => None
                     end
                 end
        end
      else if eqb c "\"%char then
        match r with
        | [] => None
        | e :: r1 => if is_word e || eqb e newline || eqb e "%"%char then None else cons_item (Lit e) (parse r1)
        end
      else if eqb c "."%char then cons_item Any (parse r)
      else if special c then None
      else cons_item (Lit c) (parse r)
  end.
(** datetemplate.py:55, RE_ALPHA_PATTERN: (?<!\%)\%[aAbBpc]; [prev] is the character before *)
Fixpoint alpha (prev : option ascii) (s : text) : bool :=
  match s with
  | [] => false
  | c :: r => (eqb c "%"%char && negb (eqb prev (Some "%"%char))
               && match r with k :: _ => inb k (tx "aAbBpc") | [] => false end)
              || alpha (Some c) r
  end.
(** str.strip() *)
Definition is_space (c : ascii) : bool := let n := char_code c in (((9 <=? n) && (n <=? 13)) || ((28 <=? n) && (n <=? 32)))%Z.
Fixpoint lstrip (s : text) : text := match s with c :: r => if is_space c then lstrip r else s | [] => [] end.
Definition rstrip (s : text) : text := rev (lstrip (rev s)).
Fixpoint prefixed (p s : text) : option text :=
  match p, s with
  | [], _ => Some s
  | a :: p', c :: r => if eqb a c then prefixed p' r else None
  | _ :: _, [] => None
  end.
(** the parameters wordBegin (True, 'start', False) and wordEnd *)
Inductive where_ := AtWord | AtStart | Anywhere.
(** what is added before: [(?=^|\b|\W)], [^(?:\W{0,2})?], nothing, or the pattern's own [^] *)
Inductive begin_ := BWord | BStart | BNone | BCaret.
(** what is added after: [(?=\b|\W|$)], nothing, or the pattern's own [$] *)
Inductive end_ := EWord | ENone | EDollar.
Record template := mkT { ci : bool; beg : begin_; items : list item; fin : end_ }.

(** datetemplate.py:106-120: [**] or [^] in front (RE_NO_WRD_BOUND_BEG, RE_DEL_WRD_BOUNDS) *)
Definition front (w : where_) (s : text) : begin_ * text :=
  match prefixed (tx "^") s with
  | Some r => (BCaret, r)
  | None => match prefixed (tx "**") s with
            | Some r => (BNone, r)
            | None => (match w with AtWord => BWord | AtStart => BStart | Anywhere => BNone end, s)
            end
  end.
(** the same at the end (RE_NO_WRD_BOUND_END), unless a backslash is before it *)
Definition back (w : bool) (s : text) : end_ * text :=
  let own := if w then EWord else ENone in
  match rev s with
  | "$"%char :: r => match r with "\"%char :: _ => (own, s) | _ => (EDollar, rev r) end
  | "*"%char :: "*"%char :: r => match r with "\"%char :: _ => (own, s) | _ => (ENone, rev r) end
  | _ => (own, s)
  end.
Definition names (l : list item) : list string := flat_map (fun i => match i with Tok t => [token_name t] | _ => [] end) l.
Fixpoint distinct (l : list string) : bool := match l with [] => true | x :: r => negb (inb x r) && distinct r end.
(** datetemplate.py:99-148, DateTemplate.setRegex of what the pattern became.  The names of the fields are put in at the same time here;
    they contain nothing the rules look for.  The pattern is stripped; with [(?iu)] in front only at its end.
    A field with a blank before it that stands first loses this blank, and [(] and what is left of it
    begin with [(?(]; an escaped [$] at the end is taken for the end (RE_GROUP), and the group is not closed; two
    groups with one name: all three do not compile. *)
Definition set_regex (p : text) (wb : where_) (we : bool) : set_to template :=
  let ci := alpha None p in
  let s := rstrip (if ci then p else lstrip p) in
  let '(b, s1) := front wb s in
  let '(e, s2) := back we s1 in
  match parse s2 with
  | None | Some [] => Outside
  | Some l =>
      let first := match l with Tok t :: _ => blank_before t | _ => false end in
      let stripped := negb ci && first && match b with BCaret => false | _ => eqb s s1 end in
      let dollar := match last l Any with Lit c => eqb c "$"%char | _ => false end && eqb s1 s2 in
      if stripped || dollar || negb (distinct (names l)) then Broken
      else Template (mkT ci b l e)
  end.
(** datetemplate.py:332-353, DatePatternRegex.setRegex *)
Definition set_pattern (p : text) (wb : where_) (we : bool) : set_to template :=
  let '(p, wb, we) := match prefixed (tx "{UNB}") p with Some r => (r, Anywhere, false) | None => (p, wb, we) end in
  match wb with
  | Anywhere => set_regex p wb we
  | _ => match prefixed (tx "{^LN-BEG}") p with
         | Some r => set_regex r AtStart we
         | None => set_regex p wb we
         end
  end.

(** * Finding the date *)
(** One item at the beginning of [s]: how long, and the group *)
Definition item_ways (ci : bool) (y : Z) (i : item) (s : text) : list (nat * list (string * text)) :=
  match i with
  | Lit c => map (fun n => (n, [])) (lens ci (one c) s)
  | Any => map (fun n => (n, [])) (lens ci (Set_ (fun c => negb (eqb c newline))) s)
  | Tok t =>
      flat_map (fun n0 => map (fun n => (n0 + n, [(token_name t, firstn n (skipn n0 s))])) (lens ci (token_re y t) (skipn n0 s)))
               (if blank_before t then lens ci (Opt (one " ")) s else [0])
  end.
Fixpoint ways (ci : bool) (y : Z) (l : list item) (s : text) : list (nat * list (string * text)) :=
  match l with
  | [] => [(0, [])]
  | i :: r => flat_map (fun '(n, g) => map (fun '(m, h) => (n + m, g ++ h)) (ways ci y r (skipn n s))) (item_ways ci y i s)
  end.
Definition last_char (before : text) : option ascii := hd_error (rev before).
Definition wordy (o : option ascii) : bool := match o with Some c => is_word c | None => false end.
(** [\b] *)
Definition boundary (before s : text) : bool := xorb (wordy (last_char before)) (wordy (hd_error s)).
Definition nonword_next (s : text) : bool := match s with c :: _ => negb (is_word c) | [] => false end.
Definition starts (before : text) : bool := match before with [] => true | _ => false end.
(** how much is skipped before group 1, in the order tried *)
Definition begin_ways (b : begin_) (before s : text) : list nat :=
  match b with
  | BWord => if starts before || boundary before s || nonword_next s then [0] else []
  | BStart => if starts before then lens false (Opt (Run 0 2 (fun c => negb (is_word c)))) s else []
  | BNone => [0]
  | BCaret => if starts before then [0] else []
  end.
(** [(?=\b|\W|$)]; [$] also matches before a newline at the end *)
Definition at_end (s : text) : bool := match s with [] => true | [c] => eqb c newline | _ => false end.
Definition end_ok (e : end_) (before s : text) : bool :=
  match e with
  | EWord => boundary before s || nonword_next s || at_end s
  | ENone => true
  | EDollar => at_end s
  end.
(** what is before group 1, group 1, what is after it, and the named groups *)
Record found := mkF { f_before : text; f_date : text; f_after : text; f_groups : list (string * text) }.
Definition find_at (T : template) (y : Z) (before s : text) : option found :=
  hd_error
    (flat_map (fun n0 =>
       flat_map (fun '(n, g) =>
         let b := before ++ firstn n0 s in let d := firstn n (skipn n0 s) in let a := skipn n (skipn n0 s) in
         if end_ok (fin T) (b ++ d) a then [mkF b d a g] else [])
       (ways (ci T) y (items T) (skipn n0 s)))
     (begin_ways (beg T) before s)).
(** re.search *)
Fixpoint search (T : template) (y : Z) (before s : text) : option found :=
  match find_at T y before s with
  | Some f => Some f
  | None => match s with [] => None | c :: r => search T y (before ++ [c]) r end
  end.
(** datetemplate.py:167-177, DateTemplate.matchDate *)
Definition match_date (T : template) (y : Z) (line : text) : option found := search T y [] line.
(** datetemplate.py:355-376, DatePatternRegex.getDate *)
Definition get_date (T : template) (y : Z) (w : world) (line : text) (tz : option Z) : option (res Z * found) :=
  match match_date T y line with
  | None => None
  | Some f => Some (strptime w (map (fun p => (fst p, Some (snd p))) (f_groups f)) tz, f)
  end.
