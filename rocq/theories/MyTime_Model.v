(** Model of fail2ban/server/mytime.py: str2seconds and seconds2str (whole numbers of seconds). *)
From Coq Require Import QArith.
From Verif Require Import Base Text.
From Coq Require Import ZifyBool ZifyNat.
Local Open Scope Z_scope.

(** Python's [\s], [\d], [a-z] with (?i), word characters; for the ASCII characters. *)
Definition is_space (c : ascii) : bool :=
  let k := char_code c in (k =? 32) || ((9 <=? k) && (k <=? 13)) || ((28 <=? k) && (k <=? 31)).
Definition is_letter (c : ascii) : bool :=
  let k := char_code c in ((65 <=? k) && (k <=? 90)) || ((97 <=? k) && (k <=? 122)).
Definition is_word (c : ascii) : bool := is_letter c || is_digit c || eqb c "_"%char.
Definition lower (c : ascii) : ascii :=
  let k := char_code c in if (65 <=? k) && (k <=? 90) then ascii_of_N (Z.to_N (k + 32)) else c.

(** mytime.py:132 and 170: a space before each digit that follows a letter; [p] is the character
    before the text *)
Fixpoint prep (p : ascii) (s : text) : text :=
  match s with
  | [] => []
  | c :: r => if is_letter p && is_digit c then " "%char :: c :: prep c r else c :: prep c r
  end.

(** the longest run of word characters at the beginning *)
Fixpoint word_run (s : text) : text :=
  match s with c :: r => if is_word c then c :: word_run r else [] | [] => [] end.
(** mytime.py:135-145 and 172-173, one (regexp, replacement) of _str2sec_parts:
    [(?i)(?<=[\d\s])(names)\b].  An alternative of letters followed by [\b] matches exactly if
    the run of word characters that begins here is this alternative; the regexp is given by the
    list of the texts its alternatives match. *)
Fixpoint sub_unit (fuel : nat) (names : list text) (rpl : text) (p : ascii) (s : text) : text :=
  match fuel, s with
  | S f, c :: r =>
      let w := word_run s in
      if (is_digit p || is_space p) && existsb (eqb (map lower w)) names
      then rpl ++ sub_unit f names rpl (last w p) (skipn (length w) s)
      else c :: sub_unit f names rpl c r
  | _, _ => s
  end.
(** mytime.py:137-145 *)
Definition parts : list (list text * text) :=
  [ (map tx ["days"; "day"; "da"; "dd"; "d"], tx "*86400");
    (map tx ["weeks"; "week"; "wee"; "we"; "ww"; "w"], tx "*604800");
    (map tx ["months"; "month"; "mon"; "mo"], tx "*2629800.0");
    (map tx ["years"; "year"; "yea"; "ye"; "yy"; "y"], tx "*31557600.0");
    (map tx ["seconds"; "second"; "sec"; "se"; "ss"; "s"], tx "*1");
    (map tx ["minutes"; "minute"; "min"; "mi"; "mm"; "m"], tx "*60");
    (map tx ["hours"; "hour"; "hou"; "ho"; "hh"; "h"], tx "*3600") ]%string.
Fixpoint drop_spaces (s : text) : text :=
  match s with c :: r => if is_space c then drop_spaces r else s | [] => [] end.
(** mytime.py:134 and 174: [(\d)\s+(\d)] to [\1+\2], from left to right; what a match has
    consumed is not looked at again *)
Fixpoint fini (fuel : nat) (s : text) : text :=
  match fuel, s with
  | S f, c :: r =>
      match is_digit c, r, drop_spaces r with
      | true, x :: _, d :: r' => if is_space x && is_digit d then c :: "+"%char :: d :: fini f r' else c :: fini f r
      | _, _, _ => c :: fini f r
      end
  | _, _ => s
  end.

(** mytime.py:175 eval(val), for sums and products of decimal numbers; None stands for all else
    (errors and the rest of Python's expressions, which are not modelled).  The arithmetic is
    exact: Python's floats agree as long as the numbers stay below 2^53 and divisions are exact. *)
Inductive tok := Num (q : Q) | Plus | Minus | Times | Divide.
Fixpoint take_digits (s : text) : list Z * text :=
  match s with
  | c :: r => if is_digit c then let '(l, r') := take_digits r in (char_code c - 48 :: l, r') else ([], s)
  | [] => ([], [])
  end.
Definition starts_with (c : ascii) (s : text) : bool := match s with x :: _ => eqb x c | [] => false end.
(** a decimal literal: a whole number other than zero has no leading zero *)
Definition number (s : text) : option (Q * text) :=
  let '(ds, r) := take_digits s in
  match ds with
  | [] => None
  | d :: _ =>
      if starts_with "."%char r then
        let '(fs, r') := take_digits (tl r) in
        Some (Qmake (value 10 (ds ++ fs)) (Z.to_pos (10 ^ Z.of_nat (length fs))), r')
      else if (d =? 0) && negb (value 10 ds =? 0) then None else Some (inject_Z (value 10 ds), r)
  end.
Fixpoint tokens (fuel : nat) (s : text) : option (list tok) :=
  match fuel, s with
  | _, [] => Some []
  | O, _ => None
  | S f, c :: r =>
      if eqb c " "%char || eqb c "009"%char then tokens f r
      else if eqb c "+"%char then option_map (cons Plus) (tokens f r)
      else if eqb c "-"%char then option_map (cons Minus) (tokens f r)
      else if eqb c "*"%char then
        if starts_with "*"%char r then None else option_map (cons Times) (tokens f r)
      else if eqb c "/"%char then
        if starts_with "/"%char r then None else option_map (cons Divide) (tokens f r)
      else match number s with
           | Some (q, r') => option_map (cons (Num q)) (tokens f r')
           | None => None
           end
  end.
(** [Want sum mul div neg]: an operand is to come; [Have sum mul]: one has been read; [mul] is the
    product that is being built, with its sign *)
Inductive est := Want (sum mul : Q) (div : bool) (neg : bool) | Have (sum mul : Q).
Definition estep (st : option est) (t : tok) : option est :=
  match st, t with
  | Some (Want sum mul div neg), Num q =>
      let q := if neg then Qopp q else q in
      if div then if Qeq_bool q 0 then None else Some (Have sum (mul / q))
      else Some (Have sum (mul * q))
  | Some (Want sum mul div neg), Plus => Some (Want sum mul div neg)
  | Some (Want sum mul div neg), Minus => Some (Want sum mul div (negb neg))
  | Some (Have sum mul), Plus => Some (Want (sum + mul) 1 false false)
  | Some (Have sum mul), Minus => Some (Want (sum + mul) (-1) false false)
  | Some (Have sum mul), Times => Some (Want sum mul false false)
  | Some (Have sum mul), Divide => Some (Want sum mul true false)
  | _, _ => None
  end%Q.
Definition eval (s : text) : option Q :=
  match tokens (length s) s with
  | Some ts => match fold_left estep ts (Some (Want 0 1 false false)) with
               | Some (Have sum mul) => Some (sum + mul)%Q
               | _ => None
               end
  | None => None
  end.
(** mytime.py:148-175 *)
Definition str2seconds (s : text) : option Q :=
  let s := prep "000"%char s in
  let s := fold_left (fun s p => sub_unit (length s) (fst p) (snd p) "000"%char s) parts s in
  eval (fini (length s) s).

(** Python's round(): to the nearest, halves to the even number; [n / d] as a float is not a half
    unless it is one exactly (for the numbers below 2^52) *)
Definition round_div (n d : Z) : Z :=
  let q := n / d in let r := 2 * (n mod d) in
  if r <? d then q else if d <? r then q + 1 else if Z.even q then q else q + 1.
(** str() of a whole number *)
Definition str (n : Z) : text := if n <? 0 then "-"%char :: dec (- n) else dec n.
(** mytime.py:177-232 seconds2str.__str__ *)
Definition seconds2str (sec : Z) : text :=
  let s := sec in
  let r :=
    if 31536000 <=? s then
      let s := round_div s 86400 in
      let r := str (s / 365) ++ tx "y " in let s := s mod 365 in
      let '(r, s) := if 7 <=? s then (r ++ str (s / 7) ++ tx "w ", s mod 7) else (r, s) in
      if s =? 0 then r else r ++ str s ++ tx "d "
    else if 604800 <=? s then
      let s := round_div s 3600 in
      let r := str (s / 168) ++ tx "w " in let s := s mod 168 in
      let '(r, s) := if 24 <=? s then (r ++ str (s / 24) ++ tx "d ", s mod 24) else (r, s) in
      if s =? 0 then r else r ++ str s ++ tx "h "
    else if 86400 <=? s then
      let s := round_div s 60 in
      let r := str (s / 1440) ++ tx "d " in let s := s mod 1440 in
      let '(r, s) := if 60 <=? s then (r ++ str (s / 60) ++ tx "h ", s mod 60) else (r, s) in
      if s =? 0 then r else r ++ str s ++ tx "m "
    else if 3595 <=? s then
      let s := round_div s 10 in
      let r := str (s / 360) ++ tx "h " in let s := s mod 360 in
      if 6 <=? s then r ++ str (s / 6) ++ tx "m " else r
    else
      let '(r, s) := if 60 <=? s then (str (s / 60) ++ tx "m ", s mod 60) else ([], s) in
      if negb (s =? 0) then r ++ str s ++ tx "s "
      else if sec =? 0 then tx "0 " else r in
  removelast r.
