(** A whole jail: fail2ban/server/jail.py:52-225 with its filter (Filter_Model), its failure manager
    (FailManager_Model), the observer's look at each failure (Observer_Model) and its actions
    (Actions_Model).  The filter and the observer put tickets into the jail's queue (jail.py:205-213
    putFailTicket), the actions take them out.

    The threads of filter, actions, observer and server are interleaved: a history is a list of steps
    of any of them.  Simplifications: those of the parts; a step of the filter is a whole line, a step
    of the actions a whole round of their main loop or a whole command (Actions_Model treats the place
    inside a round where a command can come between); the ban count that the observer writes into a
    failure ticket is left out, the one it reads is arbitrary. *)
From Verif Require Import Base Ticket_Model FailManager_Model Filter_Model BanManager_Model Actions_Model.
From Verif Require Observer_Model.

(** jail.py:74-96: the filter and the actions with the jail's queue ([as_queue]); the filter's
    [l_queue] holds what it has put in during one step. *)
Record jail := mkJail { j_flt : flt; j_acts : acts }.

(** The ticket the observer gets, observer.py:367: the object that the failure manager has under an
    ID, or another one (filter.py:736: the ticket of the line, which the failure manager kept only if
    it was the first of its ID). *)
Inductive seen := Stored (id : string) (bancount : Z) | Other (tk : ticket).

Inductive jail_op :=
| JFilter (o : flt_op)                     (* the filter's thread and commands for the filter *)
| JKnown (alive increment : bool) (rows : option (list (Z * Z))) (t : seen) (now : Z)   (* observer: failureFound *)
| JActs (o : as_op).                       (* the actions' thread and commands; [OPut] is a ban restored from
                                              the database at the start of the jail, jail.py:281-316 *)

(** jail.py:205-213 putFailTicket: the tickets go to the end of the jail's queue *)
Definition put_all (f : flt) (a : acts) : jail :=
  mkJail (with_fm (l_fm f) (l_svc f) [] f) (with_queue (as_queue a ++ l_queue f) a).

(** One step; second: the failures found by it (written to the log as Found). *)
Definition jail_step (orc : oracle) (sub : string -> option (string -> bool)) (j : jail) (o : jail_op) : jail * list (IPAddr_Model.ipaddr * Z) :=
  let f := j_flt j in
  match o with
  | JFilter o => let '(f, evs) := flt_step f o in (put_all f (j_acts j), evs)
  | JKnown alive inc rows t now =>
      match (match t with
             | Stored id bc => match dget id (fm_list (l_fm f)) with Some tk => Some (with_bancount bc tk, true) | None => None end
             | Other tk => Some (tk, false)
             end) with
      | None => (j, [])
      | Some (tk, same) =>
          match Observer_Model.failure_found alive inc rows tk same (l_fm f) now (l_svc f) (l_queue f) with
          | Some (fm, _, nx, q) => (put_all (with_fm fm nx q f) (j_acts j), [])
          | None => (j, [])
          end
      end
  | JActs o => (mkJail f (as_step orc sub (j_acts j) o), [])
  end.
Fixpoint jail_run orc sub (j : jail) (ops : list jail_op) : jail * list (list (IPAddr_Model.ipaddr * Z)) :=
  match ops with
  | [] => (j, [])
  | o :: r => let '(j, e) := jail_step orc sub j o in let '(j, es) := jail_run orc sub j r in (j, e :: es)
  end.
(** jail.py:74-96: a new jail with the configured actions *)
Definition jail_init (a : acts) : jail := mkJail flt_init a.
