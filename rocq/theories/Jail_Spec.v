(** Vocabulary for a whole jail, said from its log, its commands and the calls its actions get. *)
From Verif Require Import Base Ticket_Model FailManager_Model Filter_Model Filter_Spec Actions_Model Actions_Spec Jail_Model.

(** How often action [n] was asked to ban [id]. *)
Fixpoint ban_calls (n id : string) (tr : trace) : Z :=
  match tr with
  | [] => 0
  | (CBan m i, _) :: r => (if eqb m n && eqb i id then 1 else 0) + ban_calls n id r
  | _ :: r => ban_calls n id r
  end.

(** ** Causes of a ban *)
(** Failures of [id] found in the log or reported by a client, added up. *)
Definition filter_part (x : jail_op * list (IPAddr_Model.ipaddr * Z)) : list (string * Z * Z) :=
  match fst x with JFilter o => found_by (o, snd x) | _ => [] end.
Definition jail_found (ops : list jail_op) (evs : list (list (IPAddr_Model.ipaddr * Z))) : list (string * Z * Z) :=
  concat (map filter_part (combine ops evs)).
(** Bans of [id] restored from the database. *)
Fixpoint restored (id : string) (ops : list jail_op) : Z :=
  match ops with
  | [] => 0
  | JActs (OPut tk) :: r => (if eqb (t_id tk) id then 1 else 0) + restored id r
  | _ :: r => restored id r
  end.
(** Bans of [id] by command. *)
Fixpoint times (id : string) (l : list string) : Z := match l with [] => 0 | i :: r => (if eqb i id then 1 else 0) + times id r end.
Fixpoint commanded (id : string) (ops : list jail_op) : Z :=
  match ops with
  | [] => 0
  | JActs (OBanIP ids _) :: r => times id ids + commanded id r
  | _ :: r => commanded id r
  end.
(** What the observer adds to a failure of an offender known from [bans] bans before: 1, 2, 4, ... at
    most 2^19. *)
Definition aggravation (bans : Z) : Z := if bans <? 1 then 0 else 2 ^ (Z.min bans 20 - 1).
(** The ID and what is added.  A ticket that is no longer (or not yet) the failure manager's brings
    its own attempts, if they are more. *)
Definition aggravated (o : jail_op) : option (string * Z) :=
  match o with
  | JKnown true true (Some ((bans, last) :: _)) (Stored id bc) _ => Some (id, aggravation (Z.max bans bc))
  | JKnown true true (Some ((bans, last) :: _)) (Other tk) _ =>
      if t_time tk <=? last then None
      else let a := aggravation (Z.max bans (t_bancount tk)) in Some (t_id tk, if a =? 0 then 0 else Z.max a (t_retry tk))
  | _ => None
  end.
Fixpoint extra (id : string) (ops : list jail_op) : Z :=
  match ops with
  | [] => 0
  | o :: r => (match aggravated o with Some (i, a) => if eqb i id then a else 0 | None => 0 end) + extra id r
  end.

(** Settings and tickets as they can be: findtimes and counters are not negative. *)
Definition sane_jail (ops : list jail_op) : Prop :=
  (forall n, In (JFilter (FFind n)) ops -> 0 <= n) /\
  (forall a i r tk now, In (JKnown a i r (Other tk) now) ops -> 0 <= t_retry tk /\ 0 <= t_failures tk).
(** maxretry is never below [R] (3 is the default). *)
Definition maxretry_from (R : Z) (ops : list jail_op) : Prop := R <= 3 /\ forall n, In (JFilter (FRetry n)) ops -> R <= n.

(** ** Waiting bans *)
(** Steps of the filter, the observer's look at failures, restored bans and rounds of the actions:
    no command for bans. *)
Definition no_command (o : jail_op) : Prop :=
  match o with JFilter _ | JKnown _ _ _ _ _ | JActs (OPut _) | JActs (ORound _ _ _) => True | _ => False end.
(** Rounds in which the actions look at the queue. *)
Fixpoint ready_rounds (ops : list jail_op) : nat :=
  match ops with [] => 0 | JActs (ORound true _ _) :: r => S (ready_rounds r) | _ :: r => ready_rounds r end%nat.
(** No round raises. *)
Fixpoint rounds_fine (orc : oracle) (sub : string -> option (string -> bool)) (j : jail) (ops : list jail_op) : Prop :=
  match ops with
  | [] => True
  | o :: r => (match o with JActs (ORound rd now c) => snd (main_round orc rd now c (j_acts j)) <> None | _ => True end) /\ rounds_fine orc sub (fst (jail_step orc sub j o)) r
  end.
(** The moments of the rounds. *)
Fixpoint round_times (ops : list jail_op) : list Z :=
  match ops with [] => [] | JActs (ORound _ now _) :: r => now :: round_times r | _ :: r => round_times r end.
(** The steps of the actions among those of the jail. *)
Fixpoint acts_part (ops : list jail_op) : list as_op :=
  match ops with [] => [] | JActs o :: r => o :: acts_part r | _ :: r => acts_part r end.
Definition is_put (o : as_op) : bool := match o with OPut _ => true | _ => false end.
