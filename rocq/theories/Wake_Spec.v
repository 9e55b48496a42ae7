(** What is said about the waking of the observer and its timers. *)
From Verif Require Import Base Wake_Model.

(** No stop that gives up when the queue does not get empty *)
Definition only_forced (l : list label) : Prop := forall ev, ~ In (StopReq ev false) l.
(** The event that is being executed *)
Definition current (s : state) : list nat := match thread s with Exec e => [e] | _ => [] end.
(** Some event waits that was added by add *)
Definition announced (s : state) : Prop := exists ev, In (true, ev) (queue s).
(** The thread sleeps, and nothing but time will wake it *)
Definition asleep (s : state) : Prop := thread s = Wait /\ flag s = false.
(** The observer is in use: not paused, not stopping *)
Definition in_use (s : state) : Prop := active s = true /\ notify s = true /\ paused s = false.

(** The timers that belong to a name *)
Definition armed_as (name : string) (s : timers) : list timer :=
  filter (fun t => match t_name t with Some n => String.eqb n name | None => false end) (armed s).
Definition is_purge (e : tevent) : bool := match e with Purge => true | Other _ => false end.
(** The purges that are to come: timers and events in the queue *)
Definition to_come (s : timers) : nat :=
  (length (filter (fun t => is_purge (t_event t)) (armed s)) + length (filter is_purge (waiting s)))%nat.
(** Nobody but the observer itself asks for a purge *)
Definition others (l : tlabel) : Prop :=
  match l with
  | TNamed n _ ev => n <> "DB_PURGE"%string /\ ev <> Purge
  | TTimer _ ev | TAdd ev => ev <> Purge
  | _ => True
  end.
Definition no_purge_raised (s : timers) : Prop := forall t, ~ In (t, true) (purged s).
(** One hour at least from each to the next *)
Fixpoint an_hour_apart (l : list Z) : Prop :=
  match l with a :: (b :: _) as r => a + 3600 <= b /\ an_hour_apart r | _ => True end.

(** The events that were added *)
Definition added (l : label) : list nat := match l with Add e | AddWn e => [e] | _ => [] end.
(** Rounds of the thread alone, and time enough after each *)
Definition rounds (raises : list bool) : list label := flat_map (fun r => [Step r; Timeout]) raises.
