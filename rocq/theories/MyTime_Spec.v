(** Specification vocabulary for the time abbreviations: what a text like "1d12h - 30 min" means,
    written without the rewriting steps of the program. *)
From Coq Require Import QArith.
From Verif Require Import Base Text MyTime_Model.
Local Open Scope Z_scope.

(** The units and their spellings. *)
Definition unit_table : list (Z * list string) :=
  [ (1, ["s"; "ss"; "se"; "sec"; "second"; "seconds"]);
    (60, ["m"; "mm"; "mi"; "min"; "minute"; "minutes"]);
    (3600, ["h"; "hh"; "ho"; "hou"; "hour"; "hours"]);
    (86400, ["d"; "dd"; "da"; "day"; "days"]);
    (604800, ["w"; "ww"; "we"; "wee"; "week"; "weeks"]);
    (2629800, ["mo"; "mon"; "month"; "months"]);
    (31557600, ["y"; "yy"; "ye"; "yea"; "year"; "years"]) ]%string.
(** Seconds of a unit in any mix of upper and lower case; no unit: seconds. *)
Definition unit_seconds (u : text) : option Z :=
  match u with
  | [] => Some 1
  | _ => option_map fst (List.find (fun p => existsb (fun w => eqb (map lower u) (tx w)) (snd p)) unit_table)
  end.

(** A quantity: a number with its decimals, spaces, a unit. *)
Record item := mkItem { it_n : Z; it_frac : list Z; it_gap : nat; it_unit : text }.
(** How two quantities are joined: only by spaces (or nothing), or by a sign. *)
Inductive joint := Next (spaces : nat) | Op (before : nat) (neg : bool) (after : nat).

Definition spaces (n : nat) : text := repeat " "%char n.
Definition num_text (it : item) : text :=
  dec (it_n it) ++ match it_frac it with [] => [] | fs => "."%char :: map digit_char fs end.
Definition item_text (it : item) : text := num_text it ++ spaces (it_gap it) ++ it_unit it.
Definition joint_text (j : joint) : text :=
  match j with
  | Next k => spaces k
  | Op a neg b => spaces a ++ (if neg then "-"%char else "+"%char) :: spaces b
  end.
(** The whole text: a sign perhaps, the first quantity, the others. *)
Definition time_text (minus : bool) (first : item) (rest : list (joint * item)) : text :=
  (if minus then tx "-" else []) ++ item_text first ++ concat (map (fun p => joint_text (fst p) ++ item_text (snd p)) rest).

Definition item_ok (it : item) : Prop :=
  0 <= it_n it /\ Forall (fun d => 0 <= d < 10) (it_frac it) /\ unit_seconds (it_unit it) <> None.
(** A quantity without a unit is the last one or is followed by a sign. *)
Fixpoint joints_ok (first : item) (rest : list (joint * item)) : Prop :=
  match rest with
  | [] => True
  | (j, it) :: r => (it_unit first = [] -> exists a neg b, j = Op a neg b) /\ joints_ok it r
  end.

(** What it means: the sum. *)
Definition item_value (it : item) : Q :=
  (value 10 (digits 10 (it_n it) ++ it_frac it) # Z.to_pos (10 ^ Z.of_nat (length (it_frac it)))) *
  inject_Z (match unit_seconds (it_unit it) with Some z => z | None => 0 end).
Fixpoint sum_value (acc : Q) (rest : list (joint * item)) : Q :=
  match rest with
  | [] => acc
  | (j, it) :: r => sum_value (match j with Op _ true _ => acc - item_value it | _ => acc + item_value it end)%Q r
  end.
Definition time_value (minus : bool) (first : item) (rest : list (joint * item)) : Q :=
  sum_value (if minus then - item_value first else item_value first)%Q rest.
