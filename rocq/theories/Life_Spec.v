(** What is said about the life of server processes. *)
From Verif Require Import Base Life_Model.

Definition proc_at (w : world) (i : nat) (p : proc) : Prop := nth_error (procs w) i = Some p.
(** It answers commands *)
Definition serving (p : proc) : Prop := pc p = PLoop /\ isloop p = true /\ comm p = true.
(** Clients find it by the file of the socket *)
Definition found (w : world) (i : nat) : Prop := sockfile w = Some i /\ exists p, proc_at w i p /\ serving p.
(** Everything is stopped, and it is on its way out *)
Definition shut (p : proc) : Prop :=
  comm p = false /\ jails p = false /\ db p = false /\ observer p = false /\ isloop p = false /\ quitted p = true /\
  In (pc p) [PLoop; PStop; PQuit; PRmPid; Exited; Killed].
(** No signal for process i *)
Definition undisturbed (i : nat) (l : list label) : Prop := forall x, In x l -> (forall qr, x <> Sig i qr) /\ x <> Kill i.
(** The number of steps of its main thread *)
Definition own_steps (i : nat) (l : list label) : nat := length (filter (fun x => match x with Go j _ => Nat.eqb i j | _ => false end) l).
Definition concerns (i : nat) (x : label) : Prop :=
  match x with Start _ => False | Go j _ | Sig j _ | CmdStop j _ | Cfg j | Kill j => j = i end.
(** Servers are started without force, and some killed; nobody is told to stop, nothing fails *)
Definition quiet (x : label) : Prop :=
  match x with Start f => f = false | Go _ o => raises o = false | Cfg _ | Kill _ => True | Sig _ _ | CmdStop _ _ => False end.
Definition no_start (x : label) : Prop := match x with Start _ => False | _ => True end.

(** The loop: failures less successes, and the worst stretch that ends now *)
Definition excess (l : list poll_result) : Z := fold_right (fun r z => match r with Fine => z - 1 | Fails _ _ => z + 1 end) 0 l.
Definition worst (l : list poll_result) (n : Z) : Prop :=
  (exists a b, l = a ++ b /\ excess b = n) /\ forall a b, l = a ++ b -> excess b <= n.
Definition has_args (r : poll_result) : Prop := match r with Fine => True | Fails no_args _ => no_args = false end.
