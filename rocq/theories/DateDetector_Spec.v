(** What is said about date templates: the order they are kept in, and which of them dates a line. *)
From Coq Require Import QArith.
From Verif Require Import Base Text DateDetector_Model.
Local Open Scope nat_scope.

(** ** The order of the templates *)

(** The entry of a template after it has found a date at position [a], at the time [now] *)
Definition hit (now : Z) (a : nat) (e : entry) : entry := mkD (d_t e) (d_hits e + 1) now (Some a).
(** Hits, times the weight of the template, over the distance of its last date from the begin of the line *)
Definition weight (e : entry) : Q :=
  (inject_Z (d_hits e * t_weight (d_t e)) / inject_Z (Z.max 1 (match d_dist e with Some k => Z.of_nat k | None => 2147483647 end)))%Q.
(** [e], just used, may take the place of [p]: it weighs more, or [p] was not used for five minutes *)
Definition may_pass (e p : entry) : Prop := (weight p < weight e)%Q \/ (d_last p + 300 < d_last e)%Z.

(** [bef] becomes [aft] by taking out one entry, counting the date it found, and putting it back further ahead, or where it was *)
Inductive promoted (bef aft : list entry) (t : template) (a : nat) (now : Z) (front passed : list entry) (e : entry) : Prop :=
  promoted_intro rest :
    bef = front ++ passed ++ e :: rest -> d_t e = t -> aft = front ++ hit now a e :: passed ++ rest ->
    promoted bef aft t a now front passed e.

(** The templates of [l] that are new, the first of each name *)
Fixpoint news (known : list string) (l : list template) : list template :=
  match l with
  | [] => []
  | t :: r => if inb (t_name t) known then news known r else t :: news (known ++ [t_name t]) r
  end.

(** All templates that found a date stand before all that did not *)
Definition used_first (l : list entry) : Prop :=
  exists u v, l = u ++ v /\ Forall (fun e => 0 < d_hits e)%Z u /\ Forall (fun e => d_hits e = 0%Z) v.

(** ** Which template dates a line *)
Section Choice.
Context (search : template -> text -> option (nat * nat) -> option (nat * nat)).

(** The last date that was found: the line, the template, and where it stood *)
Definition memory := option (text * template * nat * nat).
Fixpoint last_found (m : memory) (ops : list op) (answers : list answer) : memory :=
  match ops, answers with
  | Line line _ :: r, Found t a b :: q => last_found (Some (line, t, a, b)) r q
  | _ :: r, _ :: q => last_found m r q
  | _, _ => m
  end.

Definition at1 (l : text) (k : nat) : text := firstn 1 (skipn k l).
Definition behind (l : text) (k : nat) : text := match k with 0 => [] | S j => at1 l j end.
Definition letter_or_digit (c : ascii) : bool :=
  existsb (eqb c) (list_ascii_of_string "0123456789ABCDEFGHIJKLMNOPQRSTUVWXYZabcdefghijklmnopqrstuvwxyz").
(** The same sign stands there, and it is not a letter or a digit *)
Definition same_sign (x y : text) : bool := match x, y with [c], [d] => eqb c d && negb (letter_or_digit c) | _, _ => false end.
(** Between [a] and [b] the line has the boundaries that [L] had: left of [a] and right of [b], or just inside if that is a sign *)
Definition same_place (L line : text) (a b : nat) : bool :=
  (eqb (behind line a) (behind L a) || same_sign (at1 line a) (at1 L a)) &&
  (eqb (at1 line b) (at1 L b) || same_sign (behind line b) (behind L b)).

(** The last template is asked first: only about the place of the last date if the line looks the same there, else about the whole line *)
Definition asked_whole (m : memory) (line : text) : bool :=
  match m with Some (L, t, a, b) => t_begin t || t_end t || negb (same_place L line a b) | None => false end.
Definition retry (m : memory) (line : text) : option (nat * nat) :=
  match m with
  | Some (L, t, a, b) => if asked_whole m line then search t line None else search t line (Some (a, b))
  | None => None
  end.
(** Its answer is taken at once *)
Definition kept (n : nat) (m : memory) (line : text) (t : template) (a b : nat) : Prop :=
  exists L a0 b0, m = Some (L, t, a0, b0) /\ retry m line = Some (a, b) /\
    (n = 1 \/ t_begin t = true \/ t_end t = true \/ (a = a0 /\ b = b0)).
(** ... or only kept in reserve *)
Definition reserved (n : nat) (m : memory) (line : text) (t : template) (a b : nat) : Prop :=
  exists L a0 b0, m = Some (L, t, a0, b0) /\ retry m line = Some (a, b) /\ ~ kept n m line t a b.

Section List.
Context (l : list entry) (m : memory) (sh : dict string Z) (line : text).
(** Then the others are asked about the whole line, in the order of the list *)
Definition says (i : nat) (e : entry) (a b : nat) : Prop :=
  nth_error l i = Some e /\ search (d_t e) line None = Some (a, b) /\
  ~ (asked_whole m line = true /\ exists L a0 b0, m = Some (L, d_t e, a0, b0)).
(** An answer ends the search if the template is the last one, or bound to the begin or end of the line, or if the date is at the very
    begin and the next template never matched anything, or if the date is not further to the right than the template's and the log's last *)
Definition settles (i : nat) (e : entry) (a : nat) : Prop :=
  S i = length l \/ t_begin (d_t e) = true \/ t_end (d_t e) = true \/
  (a = 0 /\ d_hits e <> 0%Z /\ exists e2, nth_error l (S i) = Some e2 /\
     (dget (t_name (d_t e2)) sh = None \/ dget (t_name (d_t e2)) sh = Some 0%Z)) \/
  (a <= match m with Some (_, _, a0, _) => a0 | None => 1 end /\ forall k, d_dist e = Some k -> a <= k).

Inductive chosen : template -> nat -> nat -> Prop :=
| by_last t a b : kept (length l) m line t a b -> chosen t a b
| by_order i e a b :
    ~ (exists t a b, kept (length l) m line t a b) ->
    says i e a b -> settles i e a ->
    (forall j e' a' b', j < i -> says j e' a' b' -> ~ settles j e' a') ->
    chosen (d_t e) a b
| by_reserve t a b :
    reserved (length l) m line t a b ->
    (forall j e' a' b', says j e' a' b' -> ~ settles j e' a' /\ a <= a') ->
    chosen t a b
| by_distance i e a b :
    ~ (exists t a b, kept (length l) m line t a b) ->
    says i e a b ->
    (forall t a' b', reserved (length l) m line t a' b' -> a < a') ->
    (forall j e' a' b', says j e' a' b' -> ~ settles j e' a' /\ a <= a' /\ (j < i -> a < a')) ->
    chosen (d_t e) a b.
End List.
End Choice.

(** A search finds nothing outside of the line, or of the part it was asked about *)
Definition search_ok (search : template -> text -> option (nat * nat) -> option (nat * nat)) : Prop :=
  forall t line part a b, search t line part = Some (a, b) -> a <= b /\ b <= length line.

(** ** Patterns *)
(** The patterns that are not the name of default templates *)
Definition plain (p : string) : Prop :=
  pkey p <> "{^LN-BEG}"%string /\ pkey p <> "{DEFAULT}"%string /\ pkey p <> "{NONE}"%string /\ has_sub "{DATE}" (pkey p) = false.
