(** Specification vocabulary for texts with options. *)
From Verif Require Import Base Text.

(** Blanks, the characters of an option's name, and what is around a text. *)
Definition blank (c : ascii) : Prop := (9 <= char_code c <= 13 \/ 28 <= char_code c <= 32)%Z.
Definition blanks (s : text) : Prop := Forall blank s.
Definition name_char (c : ascii) : Prop :=
  (48 <= char_code c <= 57 \/ 65 <= char_code c <= 90 \/ 97 <= char_code c <= 122 \/ c = "_"%char \/ c = "-"%char \/ c = "."%char)%Z.
Definition option_name (n : text) : Prop := n <> [] /\ Forall name_char n.
(** [t] is [s] without the blanks at both ends. *)
Definition trimmed (s t : text) : Prop :=
  exists a b, s = a ++ t ++ b /\ blanks a /\ blanks b
  /\ match t with [] => True | c :: _ => ~ blank c /\ ~ blank (last t c) end.

Definition dq : ascii := ascii_of_N 34.
Definition sq : ascii := ascii_of_N 39.
Definition nl : ascii := ascii_of_N 10.

(** A written value and what it stands for: in quotes everything but that quote, otherwise everything
    but a comma or a closing bracket; [rest] is what follows in the text.  A quote that is never closed
    is an ordinary character. *)
Inductive value_text (rest : text) : text -> text -> Prop :=
| V_double v : ~ In dq v -> value_text rest ([dq] ++ v ++ [dq]) v
| V_single v : ~ In sq v -> value_text rest ([sq] ++ v ++ [sq]) v
| V_bare v : ~ In ","%char v -> ~ In "]"%char v ->
    (forall q v', v = q :: v' -> q = dq \/ q = sq -> ~ In q (v' ++ rest)) -> value_text rest v v.

(** What separates two options: a comma, or the end of one group and the beginning of the next. *)
Inductive separator : text -> Prop :=
| S_comma : separator [","%char]
| S_group w : blanks w -> separator (["]"%char] ++ w ++ ["["%char]).

(** The text between the brackets and the options it gives, in order. *)
Inductive options_text : text -> list (text * text) -> Prop :=
| OT_none w : blanks w -> options_text w []
| OT_comma w : blanks w -> options_text ([","%char] ++ w) []
| OT_last w n x v : blanks w -> option_name n -> value_text [] x v -> options_text (w ++ n ++ ["="%char] ++ x) [(n, v)]
| OT_last_line w n x v : blanks w -> option_name n -> value_text [nl] x v -> x <> v -> options_text (w ++ n ++ ["="%char] ++ x ++ [nl]) [(n, v)]
| OT_next w n x v sep rest l : blanks w -> option_name n -> value_text (sep ++ rest) x v -> separator sep -> options_text rest l ->
    options_text (w ++ n ++ ["="%char] ++ x ++ sep ++ rest) ((n, v) :: l).

(** Each option has the value given last, without blanks around it. *)
Fixpoint given (k : text) (l : list (text * text)) (cur : option text) : option text :=
  match l with
  | [] => cur
  | (n, v) :: l => given k l (if eqb k n then Some v else cur)
  end.
Definition gives (l : list (text * text)) (d : dict text text) : Prop :=
  NoDup (dkeys d) /\ forall k, match given k l None with
                              | None => dget k d = None
                              | Some v => exists t, dget k d = Some t /\ trimmed v t
                              end.

(** The whole text: a name, and possibly options in brackets. *)
Inductive full_text : text -> text -> list (text * text) -> Prop :=
| F_name n : n <> [] -> ~ In "["%char n -> full_text n n []
| F_options n o w l : n <> [] -> ~ In "["%char n -> blanks w -> options_text o l ->
    full_text (n ++ ["["%char] ++ o ++ ["]"%char] ++ w) n l.

(** Words between blanks and commas. *)
Definition between (c : ascii) : Prop := blank c \/ c = ","%char.
Definition gap (s : text) : Prop := Forall between s.
Definition word (s : text) : Prop := s <> [] /\ Forall (fun c => ~ between c) s.
Inductive words_text : text -> list text -> Prop :=
| W_none g : gap g -> words_text g []
| W_one g w : gap g -> word w -> words_text (g ++ w) [w]
| W_more g w h rest l : gap g -> word w -> gap h -> h <> [] -> words_text rest l -> words_text (g ++ w ++ h ++ rest) (w :: l).

(** The part of a line before its comment: a comment begins with # or ; at the beginning of the line or
    after a blank. *)
Definition is_blank (c : ascii) : bool := ((9 <=? char_code c) && (char_code c <=? 13) || (28 <=? char_code c) && (char_code c <=? 32))%Z.
Fixpoint before_comment (may : bool) (line : text) : text :=
  match line with
  | [] => []
  | c :: r => if may && (eqb c "#"%char || eqb c ";"%char) then [] else c :: before_comment (is_blank c) r
  end.

(** A list of actions as it is written: names, each possibly with options in brackets, between blanks. *)
Inductive plain_value : text -> text -> Prop :=
| PV_double v : ~ In dq v -> plain_value ([dq] ++ v ++ [dq]) v
| PV_single v : ~ In sq v -> plain_value ([sq] ++ v ++ [sq]) v
| PV_bare v : ~ In ","%char v -> ~ In "]"%char v -> (forall q v', v = q :: v' -> q <> dq /\ q <> sq) -> plain_value v v.
Inductive option_list : text -> list (text * text) -> Prop :=
| OL_last n x v : option_name n -> plain_value x v -> option_list (n ++ ["="%char] ++ x) [(n, v)]
| OL_next n x v sep w rest l : option_name n -> plain_value x v -> separator sep -> blanks w -> option_list rest l ->
    option_list (n ++ ["="%char] ++ x ++ sep ++ w ++ rest) ((n, v) :: l).
Definition action_name (n : text) : Prop := n <> [] /\ Forall (fun c => ~ blank c /\ c <> "["%char) n.
Inductive action_text : text -> text -> list (text * text) -> Prop :=
| A_name n : action_name n -> action_text n n []
| A_options n w o l : action_name n -> blanks w -> option_list o l -> action_text (n ++ ["["%char] ++ w ++ o ++ ["]"%char]) n l.
Inductive actions_text : text -> list (text * list (text * text)) -> Prop :=
| AS_none w : blanks w -> actions_text w []
| AS_more w a n l rest L : blanks w -> action_text a n l -> match rest with [] => True | c :: _ => blank c end ->
    actions_text rest L -> actions_text (w ++ a ++ rest) ((n, l) :: L).
