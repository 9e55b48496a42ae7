(** Specification vocabulary for the observer. *)
From Coq Require Import QArith Qminmax.
From Verif Require Import Base Ticket_Model FailManager_Model Observer_Model.
Open Scope Z_scope.

(** The events that enter the queue in one step: given by other threads, or added by the
    handler of the event executed in this step. *)
Definition entered (h : handlers) (o : observer) (op : ob_op) : list nat :=
  match op with
  | BAdd ev => [ev]
  | BTake => if ob_gone o || ob_paused o then []
             else match ob_queue o with [] => [] | ev :: _ => snd (h (ob_done o) ev) end
  | BStopReq sh => if ob_active o && ob_notify o then [sh] else []
  | _ => []
  end.
Fixpoint entered_run (h : handlers) (o : observer) (ops : list ob_op) : list nat :=
  match ops with
  | [] => []
  | op :: r => entered h o op ++ entered_run h (ob_step h o op) r
  end.

(** The settings in force after a history of settings: the last value of each. *)
Record settings := mkSet {
  st_mults : list Q; st_factor : Q; st_formula : option (Q -> Z -> Q -> Q);
  st_max : option Q; st_rnd : option Q }.
Definition latest1 (s : settings) (o : be_op) : settings :=
  match o with
  | EIncrement _ | EOverall _ => s
  | EFactor v => mkSet (st_mults s) (match v with Some f => f | None => 1%Q end) (st_formula s) (st_max s) (st_rnd s)
  | EFormula v => mkSet (st_mults s) (st_factor s) v (st_max s) (st_rnd s)
  | EMults v => mkSet v (st_factor s) (st_formula s) (st_max s) (st_rnd s)
  | EMax v => mkSet (st_mults s) (st_factor s) (st_formula s) v (st_rnd s)
  | ERnd v => mkSet (st_mults s) (st_factor s) (st_formula s) (st_max s) v
  end.
Definition latest (ops : list be_op) : settings := fold_left latest1 ops (mkSet [] 1 None None None).

(** A random value of Python's random.random(). *)
Definition is_random (r : Q) : Prop := (0 <= r /\ r < 1)%Q.

(** A jail whose settings came from a history of settings. *)
Definition configured (be : extra) (ops : list be_op) : Prop := be = fold_left set_extra ops extra_init.

(** A ban of duration [d] (-1: for ever) that began at [t] lasts at least until [x]. *)
Definition lasts (t : Z) (d : Q) (x : Q) : Prop := (d == -1 \/ x <= inject_Z t + d)%Q.

(** The weight added to a failure of an ID with [bc] earlier bans. *)
Definition weight (bc maxretry : Z) : Z := Z.min (2 ^ (Z.min bc 20 - 1)) (maxretry - 1).

(** No stop of this history is forced. *)
Definition unforced (ops : list ob_op) : Prop := Forall (fun op => op <> BStopEnd true) ops.
