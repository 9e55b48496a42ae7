(** Vocabulary for the lines of a buffer that a match takes.  Nothing of the search is used. *)
From Verif Require Import Base Text Lines_Model.

(** Characters of the buffer taken up by lines, each with the newline behind it: the place where
    the next line begins. *)
Fixpoint size (ls : list line) : nat :=
  match ls with [] => O | l :: r => length (shown l) + 1 + size r end.
(** No line contains a newline. *)
Definition no_break (ls : list line) : Prop := Forall (fun l => ~ In nl (shown l)) ls.

(** A match from [s] to [e] touches the line behind [p]: it begins before the newline of the line
    and ends behind the start of the line. *)
Definition touches (s e : nat) (p : list line) (l : line) : Prop := (s + 1 < size (p ++ [l]) /\ size p < e)%nat.

(** [a], [b], [c] are the lines before the match, the touched ones and those behind. *)
Definition touched (s e : nat) (a b c : list line) : Prop :=
  forall p l r, a ++ b ++ c = p ++ l :: r -> (length a <= length p < length a + length b)%nat <-> touches s e p l.

(** [z] consists of [x] and [y], in order. *)
Inductive merge {A} : list A -> list A -> list A -> Prop :=
| G_nil : merge [] [] []
| G_left a x y z : merge x y z -> merge (a :: x) y (a :: z)
| G_right a x y z : merge x y z -> merge x (a :: y) (a :: z).
(** [x] is part of [z], in order. *)
Definition part {A} (x z : list A) : Prop := exists y, merge x y z.

(** Text without any character that ends a line for Python. *)
Definition no_line_end (t : text) : Prop := forall c, In c t -> line_end c = false.
(** A match whose <SKIPLINES> groups hold whole lines, their texts being [ts] in order. *)
Definition skips (m : rmatch) (ts : list text) : Prop :=
  Forall no_line_end ts /\ exists groups : list (list text), concat groups = ts /\
    m_skips m = map (fun g => Some (concat (map (fun t => t ++ [nl]) g))) groups.
