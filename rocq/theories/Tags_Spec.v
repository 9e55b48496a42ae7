(** What is meant by a tag, a quoted value, the variables of a shell script and the full expansion of a
    definition.  Nothing here uses the functions of Tags_Model. *)
From Verif Require Import Base Text.

Definition lt : ascii := "<"%char.
Definition gt : ascii := ">"%char.
Definition sp : ascii := " "%char.
Definition nl : ascii := ascii_of_nat 10.
Definition cr : ascii := ascii_of_nat 13.
Definition bs : ascii := "\"%char.

(** ** tags of a template *)
(** the name of a tag: not empty, without blanks and angle brackets *)
Definition tag_name (n : text) : Prop := n <> [] /\ ~ In sp n /\ ~ In lt n /\ ~ In gt n.
(** the name of a capture tag [<F-NAME>]: capitals, digits, [_] and [-] *)
Definition cap_char (c : ascii) : Prop :=
  65 <= char_code c <= 90 \/ 48 <= char_code c <= 57 \/ c = "_"%char \/ c = "-"%char.
Definition cap_name (n : text) : Prop := n <> [] /\ Forall cap_char n.

Inductive piece := Lit (c : ascii) | Tag (n : text).
(** reading a text from left to right into characters and tags [open name >] *)
Inductive parsed (open : text) (name : text -> Prop) : text -> list piece -> Prop :=
| p_nil : parsed open name [] []
| p_tag n s ps : name n -> parsed open name s ps -> parsed open name (open ++ n ++ gt :: s) (Tag n :: ps)
| p_lit c s ps : (forall n r, name n -> c :: s <> open ++ n ++ gt :: r) -> parsed open name s ps -> parsed open name (c :: s) (Lit c :: ps).

(** ** characters with a meaning in a shell *)
Definition meta : list ascii := tx "\#&;`|*?~<>^()[]{}$'" ++ [ascii_of_nat 34; nl; cr].
Definition harmless (v : text) : Prop := forall c, In c v -> ~ In c meta.
(** letters, digits and underscore *)
Definition ident_char (c : ascii) : Prop :=
  65 <= char_code c <= 90 \/ 97 <= char_code c <= 122 \/ 48 <= char_code c <= 57 \/ c = "_"%char.
Definition identb (c : ascii) : bool :=
  let k := char_code c in ((65 <=? k) && (k <=? 90)) || ((97 <=? k) && (k <=? 122)) || ((48 <=? k) && (k <=? 57)) || eqb c "_"%char.
(** the variable of a tag *)
Definition variable (n : text) : text := tx "f2bV_" ++ map (fun c => if identb c then c else "_"%char) n.

(** ** subsequences *)
Inductive subseq {A} : list A -> list A -> Prop :=
| sub_nil : subseq [] []
| sub_skip x a b : subseq a b -> subseq a (x :: b)
| sub_keep x a b : subseq a b -> subseq (x :: a) (x :: b).

(** ** a little of the shell *)
(** the text before the first newline *)
Fixpoint first_line (s : text) : text :=
  match s with [] => [] | c :: r => if eqb c nl then [] else c :: first_line r end.
(** the words of a line; [name=$d...] sets the variable to the argument of one digit [d] and what follows *)
Definition word_value (args : list text) (w : text) : text :=
  match w with
  | d :: c :: r => if eqb d "$"%char && is_digit c then nth (Z.to_nat (char_code c - 48)) args [] ++ r else w
  | _ => w
  end.
Fixpoint cut_at (c : ascii) (w : text) : option (text * text) :=
  match w with
  | [] => None
  | x :: r => if eqb x c then Some ([], r) else match cut_at c r with Some (a, b) => Some (x :: a, b) | None => None end
  end.
Definition assignment (args : list text) (w : text) : list (text * text) :=
  match cut_at "="%char w with Some (x, v) => [(x, word_value args v)] | None => [] end.
(** the variables after the first line of [sh -c script arg0 arg1 ...] *)
Definition shell_vars (script : text) (args : list text) : list (text * text) :=
  concat (map (assignment args) (split sp (first_line script))).
(** [$name] in the other lines, once, with the longest name *)
Fixpoint ident (s : text) : text * text :=
  match s with c :: r => if identb c then let '(a, b) := ident r in (c :: a, b) else ([], s) | [] => ([], []) end.
Fixpoint shell_text (fuel : nat) (env : list (text * text)) (s : text) : text :=
  match fuel, s with
  | S k, c :: r =>
      if eqb c "$"%char
      then let '(x, r') := ident r in (match dget x env with Some v => v | None => [] end) ++ shell_text k env r'
      else c :: shell_text k env r
  | _, _ => []
  end.

(** ** backslashes *)
(** reading with C-like escapes: [\n] and [\r] are control characters, other [\c] is [c] *)
Fixpoint unescape (s : text) : text :=
  match s with
  | [] => []
  | c :: r =>
      if eqb c bs
      then match r with
           | [] => [bs]
           | d :: r' => (if eqb d "n"%char then nl else if eqb d "r"%char then cr else d) :: unescape r'
           end
      else c :: unescape r
  end.
(** a shell, outside of quotes: [\c] is [c] *)
Fixpoint unquote (s : text) : text :=
  match s with
  | [] => []
  | c :: r => if eqb c bs then match r with [] => [bs] | d :: r' => d :: unquote r' end else c :: unquote r
  end.
(** the characters of a text that no backslash precedes *)
Fixpoint bare (s : text) : text :=
  match s with
  | [] => []
  | c :: r => if eqb c bs then match r with [] => [bs] | _ :: r' => bare r' end else c :: bare r
  end.

(** ** the full expansion of definitions *)
(** texts where each [<] begins a tag or is followed by a blank *)
Inductive tok := TChar (c : ascii) | TLess | TTag (n : text).
Definition tok_ok (t : tok) : Prop := match t with TChar c => c <> lt | TLess => True | TTag n => tag_name n end.
Definition tok_text (t : tok) : text := match t with TChar c => [c] | TLess => [lt; sp] | TTag n => lt :: n ++ [gt] end.
Definition toks_text (l : list tok) : text := concat (map tok_text l).
Definition regular (v : text) : Prop := exists l, Forall tok_ok l /\ v = toks_text l.

Section Expand.
(** the value of a tag, if it has one and is to be replaced *)
Context (def : text -> option text).
Inductive expands : list tok -> list tok -> Prop :=
| e_nil : expands [] []
| e_keep t l l' : (forall n, t = TTag n -> def n = None) -> expands l l' -> expands (t :: l) (t :: l')
| e_tag n v d d' l l' : def n = Some v -> Forall tok_ok d -> v = toks_text d -> expands d d' -> expands l l' -> expands (TTag n :: l) (d' ++ l').
End Expand.

(** what a tag stands for: nothing if it is to be left, else the definition for the condition [cond] (if
    there is a condition), else the plain one, else the additional one *)
Definition definition (cond : text) (left : list text) (tags extra : dict text text) (n : text) : option text :=
  if inb n left then None
  else match (if eqb cond [] then None else dget (n ++ "?"%char :: cond) tags) with
       | Some v => Some v
       | None => match dget n tags with Some v => Some v | None => dget n extra end
       end.

(** ** the meaning of a command with values *)
(** each tag stands apart from letters, digits and underscores after it *)
Fixpoint apart (ps : list piece) : Prop :=
  match ps with
  | [] => True
  | Lit _ :: r => apart r
  | Tag _ :: r => match r with [] => True | Lit c :: _ => identb c = false | Tag _ :: _ => False end /\ apart r
  end.
Definition meant (value : text -> option text) (p : piece) : text :=
  match p with Lit c => [c] | Tag n => match value n with Some v => v | None => [] end end.
(** the lines after the first *)
Fixpoint other_lines (s : text) : text :=
  match s with [] => [] | c :: r => if eqb c nl then r else other_lines r end.

(** ** how values are put into a script *)
(** a value without shell characters as it is, another one by its variable *)
Definition value_shown (tag v t : text) : Prop := (harmless v /\ t = v) \/ (~ harmless v /\ t = "$"%char :: variable tag).
(** a tag with a value; else its fixed replacement, else the tag itself *)
Definition tag_shown (value fixed : text -> option text) (p : piece) (t : text) : Prop :=
  match p with
  | Lit c => t = [c]
  | Tag n => match value n with
             | Some v => value_shown n v t
             | None => t = match fixed n with Some f => f | None => [lt] ++ n ++ [gt] end
             end
  end.
(** the capture that [<F-NAME>] stands for: in small letters, [id] and [port] have other names *)
Definition small (c : ascii) : ascii :=
  let k := char_code c in if (65 <=? k) && (k <=? 90) then ascii_of_N (Z.to_N (k + 32)) else c.
Definition capture (n : text) : text :=
  let s := map small n in if eqb s (tx "id") then tx "fid" else if eqb s (tx "port") then tx "fport" else s.
Definition capture_shown (value : text -> option text) (p : piece) (t : text) : Prop :=
  match p with
  | Lit c => t = [c]
  | Tag n => match value (capture n) with Some v => value_shown (tx "F_" ++ capture n) v t | None => t = [] end
  end.
(** the variable [x] is needed for the value [v] *)
Definition needed (value tick : text -> option text) (ps qs : list piece) (x v : text) : Prop :=
  (exists n, In (Tag n) ps /\ value n = Some v /\ ~ harmless v /\ x = variable n) \/
  (exists n, In (Tag n) qs /\ tick (capture n) = Some v /\ ~ harmless v /\ x = variable (tx "F_" ++ capture n)).
(** shell characters other than [$] and newline *)
Definition bad (c : ascii) : bool := inb c meta && negb (eqb c "$"%char) && negb (eqb c nl).
