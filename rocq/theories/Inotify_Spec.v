(** What is said about following logs with inotify *)
From Verif Require Import Base Inotify_Model.
Local Open Scope Z_scope.

(** How many lines the file that is at the path has, and how many of them have been read *)
Definition lines_of (s : state) (p : path) : option Z :=
  match dget p (files (F s)) with Some i => Some (num i (sizes (F s))) | None => None end.
Definition read_of (s : state) (p : path) : option Z :=
  match dget p (files (F s)) with Some i => Some (num i (seen (N s))) | None => None end.
(** All lines of the file that is there have been read *)
Definition up_to_date (s : state) (p : path) : Prop := read_of s p = lines_of s p.

Definition a_log (s : state) (p : path) : Prop := In p (logs (N s)).
Definition waited_for (s : state) (p : path) : Prop := dmem p (pend (N s)) = true.
(** No event is waiting, and the thread is not in the middle of something *)
Definition at_rest (s : state) : Prop := queue (K s) = [] /\ todo s = [].

(** What is left out: directories do not change while the thread is in the middle of a callback or a check; a directory is not moved with
    watched directories somewhere below it; a log is not moved to another path that could be watched, too; no log is the directory of
    another log, or in the root directory; the jail is not made idle. Files may change at any time. *)
Definition gentle (s : state) (o : op) : Prop :=
  match o with
  | MkDir _ | RmDir _ => todo s = []
  | MoveDir d => todo s = [] /\ forall e, dmem e (wdirs (N s)) = true -> under d e = false
  | Rename q _ => ~ In q (logs (N s))
  | AddLog p => dmem p (wdirs (N s)) = false /\ ~ In (dirname p) (logs (N s)) /\ dirname p <> []
  | SetIdle b => b = false
  | _ => True
  end.
Fixpoint gentle_run (s : state) (ops : list op) : Prop :=
  match ops with [] => True | o :: r => gentle s o /\ gentle_run (step s o) r end.

(** The thread goes on by itself: with what it is doing, or with the next event *)
Definition go_on (s : state) : state := match todo s with [] => step s Callback | _ => step s Step end.
Fixpoint goes_on (n : nat) (s : state) : state := match n with O => s | S m => goes_on m (go_on s) end.

(** How long the path is to wait between two looks; every path that is waited for is looked at at that time *)
Definition waits (s : state) (p : path) (r : Z) : Prop := exists b, dget p (pend (N s)) = Some (r, b).
Definition all_due (s : state) (t : Z) : Prop :=
  200 <= t - chk_time (N s) /\ min_time (N s) <= t - chk_time (N s) /\ forall p r, waits s p r -> r <= t - chk_time (N s).
(** What is waited for is there *)
Definition is_there (s : state) (p : path) (b : option bool) : bool := match b with Some true => isdir (F s) p | _ => isfile (F s) p end.

(** The thread looks after what it waits for at least every 21 seconds *)
Fixpoint steady (last : Z) (ops : list op) : Prop :=
  match ops with
  | [] => True
  | Check now later :: r => last <= now <= later /\ later <= last + 21000 /\ steady later r
  | _ :: r => steady last r
  end.

(** No log is in a directory below that of another log *)
Definition flat (l : list path) : Prop := forall p q, In p l -> In q l -> under (dirname p) q = true -> dirname q = dirname p.
Fixpoint flat_run (s : state) (ops : list op) : Prop :=
  match ops with
  | [] => True
  | o :: r => match o with AddLog p => flat (p :: logs (N s)) | _ => True end /\ flat_run (step s o) r
  end.
