(** Specification vocabulary for the cache and for waiting. *)
From Verif Require Import Base Utils_Model.

Section Cache.
Context {V : Type}.
(** The last value stored for [k] in a history and the time it expires, if it was not taken
    back or found expired by a lookup since; [ttl] is the time to live in force at the beginning. *)
Fixpoint stored (k : string) (ttl : Z) (ops : list (ca_op V)) (cur : option (V * Z)) : option (V * Z) :=
  match ops with
  | [] => cur
  | CSet t k' v :: r => stored k ttl r (if eqb k k' then Some (v, t + ttl) else cur)
  | CGet t k' :: r => stored k ttl r (match cur with
                                      | Some (v, e) => if eqb k k' && (e <=? t) then None else cur
                                      | None => None
                                      end)
  | CUnset k' :: r => stored k ttl r (if eqb k k' then None else cur)
  | CClear :: r => stored k ttl r None
  | COptions _ ttl' :: r => stored k ttl' r cur
  end.

(** All keys stored in the history are among [ks], which are fewer than every maximal size. *)
Definition few_keys (ks : list string) (ops : list (ca_op V)) : Prop :=
  Forall (fun o => match o with
                   | CSet _ k _ => In k ks
                   | COptions m _ => (length ks < m)%nat
                   | _ => True end) ops.
(** Options are not changed. *)
Definition fixed_options (ops : list (ca_op V)) : Prop :=
  Forall (fun o => match o with COptions _ _ => False | _ => True end) ops.

Definition live (t : Z) (kv : string * (V * Z)) : bool := t <? snd (snd kv).
End Cache.

(** [n] is the first call at which the condition holds or the time is over. *)
Definition first_stop (cond late : nat -> bool) (n : nat) : Prop :=
  cond n || late n = true /\ forall i, (i < n)%nat -> cond i || late i = false.

(** the interval, two tenths of a second if none is given *)
Definition the_step (interval : option Z) : Z :=
  match interval with Some i => if i =? 0 then 200 else i | None => 200 end.
