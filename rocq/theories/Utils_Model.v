(** Model of parts of fail2ban/server/utils.py: the cache (lines 65-111) and wait_for
    (lines 282-320). *)
From Verif Require Import Base.

(** ** Cache.  Keys are texts, values opaque; times are integers (any clock). *)
Section Cache.
Context {V : Type}.

Record cache := mkCache {
  ca_list : dict string (V * Z);     (* _cache: value and time it expires *)
  ca_max  : nat;                     (* maxCount *)
  ca_ttl  : Z                        (* maxTime *)
}.
Definition ca_with_list l (c : cache) := mkCache l (ca_max c) (ca_ttl c).

(** utils.py:97-101: pop from the front until a live entry was popped and there is room *)
Fixpoint evict (t : Z) (max : nat) (l : dict string (V * Z)) : dict string (V * Z) :=
  match l with
  | [] => []
  | (_, (_, e)) :: r => if (e >? t) && Nat.ltb (length r) max then r else evict t max r
  end.

(** utils.py:89-103 set(k, v) at time [t] *)
Definition ca_set (c : cache) (t : Z) (k : string) (v : V) : cache :=
  let l := if Nat.leb (ca_max c) (length (ca_list c)) then evict t (ca_max c) (ca_list c) else ca_list c in
  ca_with_list (dset k (v, t + ca_ttl c) l) c.

(** utils.py:81-87 get(k) at time [t] *)
Definition ca_get (c : cache) (t : Z) (k : string) : cache * option V :=
  match dget k (ca_list c) with
  | Some (v, e) => if e >? t then (c, Some v) else (ca_with_list (ddel k (ca_list c)) c, None)
  | None => (c, None)
  end.

(** utils.py:105-107, 109-111, 74-76 *)
Inductive ca_op :=
| CSet (t : Z) (k : string) (v : V) | CGet (t : Z) (k : string)
| CUnset (k : string) | CClear | COptions (max : nat) (ttl : Z).

Definition ca_step (c : cache) (o : ca_op) : cache :=
  match o with
  | CSet t k v => ca_set c t k v
  | CGet t k => fst (ca_get c t k)
  | CUnset k => ca_with_list (ddel k (ca_list c)) c
  | CClear => ca_with_list [] c
  | COptions m ttl => mkCache (ca_list c) m ttl
  end.
Definition ca_run (c : cache) (ops : list ca_op) : cache := fold_left ca_step ops c.
End Cache.
Arguments cache : clear implicits.
Arguments ca_op : clear implicits.

(** ** utils.py:282-320 wait_for(cond, timeout, interval)

    Times in milliseconds.  [cond i] is the answer of the i-th call of the condition, [late i]
    the answer of the i-th call of the time-out test.  [None] when the fuel is used up.
    Result: value returned, number of calls of the condition, sleeps in order. *)
Definition DEFAULT_SLEEP_TIME : Z := 2000.
Definition DEFAULT_SLEEP_INTERVAL : Z := 200.

Definition next_sleep (interval : option Z) (stm : Z) : Z :=
  let step := match interval with
              | Some i => if i =? 0 then DEFAULT_SLEEP_INTERVAL else i
              | None => DEFAULT_SLEEP_INTERVAL
              end in
  Z.min (stm + step) DEFAULT_SLEEP_TIME.

Fixpoint wait_for (fuel : nat) (cond late : nat -> bool) (interval : option Z) (i : nat) (stm : Z)
  : option (bool * nat * list Z) :=
  match fuel with
  | O => None
  | S f =>
      if cond i then Some (true, S i, [])
      else if late i then Some (false, S i, [])
      else let stm := next_sleep interval stm in
           match wait_for f cond late interval (S i) stm with
           | Some (r, n, sl) => Some (r, n, stm :: sl)
           | None => None
           end
  end.
