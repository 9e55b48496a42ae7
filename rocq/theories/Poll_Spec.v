(** What is said about polling: what is known of a log, told from the history of what was done and seen. *)
From Verif Require Import Base Poll_Model.
Local Open Scope Z_scope.

(** A log that is not watched; or the last state it was seen in, if any, and how often in a row it could not be looked at since *)
Inductive watch := Absent | Watched (last : option stat) (misses : Z).

Definition looked (w : watch) (o : outcome) : watch :=
  match w, o with
  | Absent, _ => Absent
  | Watched _ _, St st => Watched (Some st) 0
  | Watched l m, _ => if m =? 50 then Absent else Watched l (m + 1)
  end.
Definition watched (w : watch) : Prop := w <> Absent.
(** It has changed: it was looked at, and is not as it was *)
Definition changed (w : watch) (o : outcome) : Prop := exists l m st, w = Watched l m /\ o = St st /\ l <> Some st.

(** The history of one log *)
Definition watch_step (p : string) (w : watch) (o : op) (a : answer) : watch :=
  match o, a with
  | Add q, _ => if eqb q p then match w with Absent => Watched None 0 | _ => w end else w
  | Del q, _ => if eqb q p then Absent else w
  | SetIdle _, _ => w
  | Pass _ _, Asleep => w
  | Pass stats _, _ => looked w (stats p)
  end.
Fixpoint history (p : string) (w : watch) (ops : list op) (ans : list answer) : watch :=
  match ops, ans with
  | o :: r, a :: q => history p (watch_step p w o a) r q
  | _, _ => w
  end.
(** The errors of looking at logs are those of the system (a missing file, a refused access) *)
Definition system_errors (o : op) : Prop := match o with Pass stats _ => forall p, stats p <> OtherErr | _ => True end.
Definition no_answer (o : outcome) : Prop := match o with St _ => False | _ => True end.
Definition pass (o : op) : Prop := match o with Pass _ _ => True | _ => False end.
Definition read_in (a : answer) (p : string) : Prop := match a with Polled l | Failed l => In p l | _ => False end.

(** How many errors the logs [paths] could cause: looks that failed, lines that failed, readings that failed *)
Fixpoint failing_lines (l : list bool) : Z := match l with [] => 0 | true :: r => failing_lines r | false :: r => 1 + failing_lines r end.
Definition failing (o : outcome) (r : reading) : Z :=
  match o with St _ => 0 | _ => 1 end + match r with Lines l => failing_lines l | Raise => 1 end.
Fixpoint failing_in (paths : list string) (stats : string -> outcome) (reads : string -> reading) : Z :=
  match paths with [] => 0 | p :: r => failing (stats p) (reads p) + failing_in r stats reads end.
Fixpoint total_failing (paths : list string) (ops : list op) : Z :=
  match ops with
  | [] => 0
  | Pass stats reads :: r => failing_in paths stats reads + total_failing paths r
  | _ :: r => total_failing paths r
  end.
