(** How patterns are written. *)
From Verif Require Import Base Text Template_Model Template_Spec.
Local Open Scope string_scope. Local Open Scope list_scope. Local Open Scope nat_scope.

(** the letters of the fields, as in the manual *)
Definition letters (t : token) : string :=
  match t with
  | Ta => "a" | TA => "A" | Tb => "b" | TB => "B" | Tp => "p" | Td => "d" | Tm => "m" | TY => "Y" | Ty => "y" | TH => "H"
  | TI => "I" | TM => "M" | TS => "S" | Tf => "f" | Tj => "j" | TU => "U" | TW => "W" | Tw => "w" | Tz => "z" | Tk => "k" | Tl => "l"
  | Exd => "Exd" | Exm => "Exm" | ExH => "ExH" | Exk => "Exk" | Exl => "Exl" | ExM => "ExM" | ExS => "ExS" | ExY => "ExY" | Exy => "Exy"
  end.
(** One item: a field, any character, or a character that stands for itself, with a backslash if it has a meaning
    in regular expressions; a percent sign is doubled. *)
Definition item_text (i : item) : text :=
  match i with
  | Tok t => "%"%char :: tx (letters t)
  | Any => ["."%char]
  | Lit c => if ascii_dec c "%" then tx "%%" else if in_dec ascii_dec c (tx "\.^$*+?(){}[]|") then ["\"%char; c] else [c]
  end.
Definition pattern_text (l : list item) : text := concat (map item_text l).
(** The marks before and after *)
Inductive mark_front := FNone | FLine | FUnbound | FCaret | FStars.
Inductive mark_back := KNone | KDollar | KStars.
Definition front_text (f : mark_front) : text :=
  tx match f with FNone => "" | FLine => "{^LN-BEG}" | FUnbound => "{UNB}" | FCaret => "^" | FStars => "**" end.
Definition back_text (k : mark_back) : text := tx match k with KNone => "" | KDollar => "$" | KStars => "**" end.
(** what they mean, if [w] and [e] are what is asked for otherwise *)
Definition begins (f : mark_front) (w : where_) : begin_ :=
  match f with
  | FNone => match w with AtWord => BWord | AtStart => BStart | Anywhere => BNone end
  | FLine => BStart
  | FUnbound | FStars => BNone
  | FCaret => BCaret
  end.
Definition ends (f : mark_front) (k : mark_back) (e : bool) : end_ :=
  match k, f with
  | KDollar, _ => EDollar
  | KStars, _ | KNone, FUnbound => ENone
  | KNone, _ => if e then EWord else ENone
  end.
(** Names of days, months and halves of days are there, not directly after a percent sign: then upper and lower case are the same. *)
Definition has_names (l : list item) : Prop :=
  exists before t after, l = before ++ Tok t :: after /\ In t [Ta; TA; Tb; TB; Tp] /\ forall b, before <> b ++ [Lit "%"%char].
Definition blank (c : ascii) : Prop := is_space c = true.
(** The ends of patterns that are not taken as they stand: blanks; at the beginning also the fields that may have a blank
    for a digit and are not in the other group of fields; at the end also a dollar and a backslash. *)
Definition plain_front (l : list item) : Prop :=
  match hd_error l with
  | Some (Lit c) => ~ blank c
  | Some (Tok t) => ~ In t [Tk; Tl; Exk; Exl]
  | _ => True
  end.
Definition plain_back (l : list item) : Prop :=
  forall r c, l = r ++ [Lit c] -> ~ blank c /\ c <> "$"%char /\ c <> "\"%char.
(** The parts of the date the pattern names *)
Definition parts_of (l : list item) : list string := flat_map (fun i => match i with Tok t => [part_of t] | _ => [] end) l.
