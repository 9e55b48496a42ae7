(** What a date pattern means, independently of regular expressions: which texts are dates written
    as the pattern says, and where in a line they may stand. *)
From Coq Require Import ZifyBool ZifyNat.
From Verif Require Import Base Text Strptime_Spec Template_Model.
Local Open Scope string_scope. Local Open Scope list_scope. Local Open Scope nat_scope.

(** * How a field may be written *)
(** a number with zeros before it, up to this width; a number below ten with a blank before it *)
Definition padded (w : nat) (n : Z) : text := repeat "0"%char (w - length (dec n)) ++ dec n.
Definition blank_padded (n : Z) : text := repeat " "%char (2 - length (dec n)) ++ dec n.
(** a number between [lo] and [hi], written in one of these styles *)
Definition number (lo hi : Z) (styles : list (Z -> text)) (s : text) : Prop :=
  exists n style, (lo <= n <= hi)%Z /\ In style styles /\ s = style n.
(** one of these names, without regard to case if the pattern ignores it *)
Definition name (ignore : bool) (l : list string) (s : text) : Prop :=
  exists a, In a l /\ if ignore then same_letters s (tx a) else s = tx a.
Definition some_digits (least most : nat) (s : text) : Prop :=
  least <= length s <= most /\ Forall (fun c => is_digit c = true) s.
Definition long_name (p : Z * string * string) : string := snd (fst p).
(** Z, UTC or GMT; or an offset below 20 hours, in hours (hh) or in hours and two more digits (hhmm, hh:mm) *)
Definition offset_text (ignore : bool) (s : text) : Prop :=
  (exists a, In a ["Z"; "UTC"; "GMT"] /\
     if ignore then map Strptime_Model.lower_char s = map Strptime_Model.lower_char (tx a) else s = tx a)
  \/ exists sign h1 h2 m, s = sign :: h1 :: h2 :: m /\ In sign ["+"%char; "-"%char] /\ In h1 ["0"%char; "1"%char] /\
     is_digit h2 = true /\ (m = [] \/ some_digits 2 2 m \/ exists m', m = ":"%char :: m' /\ some_digits 2 2 m').
(** The years %ExY takes in a process that started in the year [start]: from 2000 to the end of the decade in which it is
    three years later. *)
Definition near_year (start : Z) (s : text) : Prop := number 2000 (10 * ((start + 3) / 10) + 9) [dec] s.
Definition started (start : Z) : Prop := (2001 <= start <= 9986)%Z.
Definition field_text (start : Z) (ignore : bool) (t : token) (s : text) : Prop :=
  match t with
  | Ta => name ignore (map snd day_names) s
  | TA => name ignore (map long_name day_names) s
  | Tb => name ignore (map snd month_names) s
  | TB => name ignore (map long_name month_names) s
  | Tp => name ignore ["am"; "pm"] s
  | Td => number 1 31 [dec; padded 2; blank_padded] s
  | Tm => number 1 12 [dec; padded 2] s
  | TY => some_digits 4 4 s
  | Ty => number 0 99 [padded 2] s
  | TH => number 0 23 [dec; padded 2] s
  | TI => number 1 12 [dec; padded 2] s
  | TM => number 0 59 [dec; padded 2] s
  | TS => number 0 61 [dec; padded 2] s
  | Tf => some_digits 1 6 s
  | Tj => number 1 366 [dec; padded 2; padded 3] s
  | TU | TW => number 0 53 [dec; padded 2] s
  | Tw => number 0 6 [dec] s
  | Tz => offset_text ignore s
  | Tk => number 0 29 [dec; padded 2] s
  | Tl => number 0 19 [dec] s
  | Exd => number 1 31 [padded 2] s
  | Exm => number 1 12 [padded 2] s
  | ExH => number 0 23 [padded 2] s
  | Exk => number 0 23 [dec; padded 2] s
  | Exl => number 0 12 [dec] s
  | ExM => number 0 59 [padded 2] s
  | ExS => number 0 61 [padded 2] s
  | ExY => near_year start s
  | Exy => number 0 99 [padded 2] s
  end.
(** which part of a date the field is, by the letter strptime has for it *)
Definition part_of (t : token) : string :=
  match t with
  | Ta => "a" | TA => "A" | Tb => "b" | TB => "B" | Tp => "p" | Tf => "f" | Tj => "j" | TU => "U" | TW => "W"
  | Tw => "w" | Tz => "z" | TM | ExM => "M" | TS | ExS => "S" | Td | Exd => "d" | Tm | Exm => "m"
  | TY | ExY => "Y" | Ty | Exy => "y" | TH | ExH | Tk | Exk => "H" | TI | Tl | Exl => "I"
  end.
(** %k, %l and their exact forms: a blank may be before the number *)
Definition may_be_blank (t : token) (s : text) : Prop :=
  s = [] \/ (s = [" "%char] /\ In t [Tk; Tl; Exk; Exl]).
(** the same character, or the same letter if the pattern ignores case *)
Definition same_char (ignore : bool) (x c : ascii) : Prop :=
  x = c \/ (ignore = true /\ Strptime_Model.lower_char x = Strptime_Model.lower_char c).
(** [s] is written as the items of a pattern say, with these parts *)
Inductive wrote (start : Z) (ignore : bool) : list item -> text -> list (string * text) -> Prop :=
  | w_nil : wrote start ignore [] [] []
  | w_lit c x l s g : same_char ignore x c -> wrote start ignore l s g -> wrote start ignore (Lit c :: l) (x :: s) g
  | w_any x l s g : x <> newline -> wrote start ignore l s g -> wrote start ignore (Any :: l) (x :: s) g
  | w_tok t b v l s g : may_be_blank t b -> field_text start ignore t v -> wrote start ignore l s g ->
      wrote start ignore (Tok t :: l) (b ++ v ++ s) ((part_of t, v) :: g).

(** * Where it may stand *)
Definition word_char (c : ascii) : Prop :=
  let n := char_code c in ((48 <= n <= 57) \/ (65 <= n <= 90) \/ (97 <= n <= 122) \/ n = 95)%Z.
(** a cut that goes through a word or a number *)
Definition inside_word (before after : text) : Prop :=
  exists p c d q, before = p ++ [c] /\ after = d :: q /\ word_char c /\ word_char d.
Definition begins_well (b : begin_) (before after : text) : Prop :=
  match b with
  | BWord => ~ inside_word before after
  | BStart => length before <= 2 /\ Forall (fun c => ~ word_char c) before
  | BCaret => before = []
  | BNone => True
  end.
Definition ends_well (e : end_) (before after : text) : Prop :=
  match e with
  | EWord => ~ inside_word before after
  | EDollar => after = [] \/ after = [newline]
  | ENone => True
  end.
(** In the line there is a date as the template says: [date], with these parts, after [before] and before [after]. *)
Definition date_in (T : template) (start : Z) (line before date after : text) (g : list (string * text)) : Prop :=
  line = before ++ date ++ after /\ wrote start (ci T) (items T) date g /\
  begins_well (beg T) before (date ++ after) /\ ends_well (fin T) (before ++ date) after.

(** * Patterns in which it is clear where a field ends *)
(** always written with the same number of characters, or by a name *)
Definition fixed (t : token) : Prop :=
  In t [Ta; TA; Tb; TB; Tp; TY; Ty; Tw; Exd; Exm; ExH; ExM; ExS; ExY; Exy].
Definition may_continue (t : token) (c : ascii) : Prop :=
  ~ fixed t /\ (is_digit c = true \/ (t = Tz /\ c = ":"%char)).
(** what comes after a field cannot be taken for a part of it: a character that cannot, a name or an offset, or the
    end; [after] is what follows the date *)
Definition ends_there (t : token) (next : list item) (e : end_) (after : text) : Prop :=
  match next with
  | [] => fixed t \/ (e <> ENone /\ (t = Tz -> hd_error after <> Some ":"%char))
  | Lit c :: _ => ~ may_continue t c
  | Any :: _ => fixed t
  | Tok t' :: _ => fixed t \/ In t' [Ta; TA; Tb; TB; Tp; Tz]
  end.
Fixpoint clear (l : list item) (e : end_) (after : text) : Prop :=
  match l with
  | [] => True
  | Tok t :: r => ends_there t r e after /\ clear r e after
  | _ :: r => clear r e after
  end.
