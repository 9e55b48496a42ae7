(** Model of fail2ban/server/observer.py (event queue, failureFound, incrBanTime, banFound)
    and of the ban time settings of fail2ban/server/jail.py:225-279.

    Ban times, factors and random values are exact rationals (Python: int or float, so
    rounding of floats is not modelled); counters and points in time are integers. *)
From Coq Require Import QArith Qminmax.
From Verif Require Import Base Ticket_Model FailManager_Model.
Open Scope Z_scope.

(** ** jail.py:225-273: settings of the ban time increment *)

(** The values captured by the closures of jail.py:250-265 ([be['evformula']]).
    [ev_formula]: a configured formula as a function of ban.Time, ban.Count and banFactor. *)
Record evformula := mkEv {
  ev_mults   : list Q;                        (* multipliers *)
  ev_factor  : Q;                             (* banFactor *)
  ev_formula : option (Q -> Z -> Q -> Q);     (* None: the default of jail.py:255 *)
  ev_max     : option Q;                      (* maxtime *)
  ev_rnd     : option Q                       (* rndtime *)
}.

(** The dictionary [_banExtra]; a missing key is None ([be_mults]: evmultipliers). *)
Record extra := mkExtra {
  be_increment : bool;
  be_overall   : bool;
  be_factor    : option Q;
  be_formula   : option (Q -> Z -> Q -> Q);
  be_mults     : list Q;
  be_maxtime   : option Q;
  be_rndtime   : option Q;
  be_ev        : option evformula
}.

(** jail.py:86 *)
Definition extra_init : extra := mkExtra false false None None [] None None None.

(** One call of setBanTimeExtra(opt, value); the value is already parsed (MyTime.str2seconds,
    eval of the factor, int() of the multipliers), None for '' or None. *)
Inductive be_op :=
| EIncrement (v : bool) | EOverall (v : bool)
| EFactor (v : option Q) | EFormula (v : option (Q -> Z -> Q -> Q))
| EMults (v : list Q) | EMax (v : option Q) | ERnd (v : option Q).

(** jail.py:228-241: store the option *)
Definition be_store (be : extra) (o : be_op) : extra :=
  match o with
  | EIncrement v => mkExtra v (be_overall be) (be_factor be) (be_formula be) (be_mults be) (be_maxtime be) (be_rndtime be) (be_ev be)
  | EOverall v => mkExtra (be_increment be) v (be_factor be) (be_formula be) (be_mults be) (be_maxtime be) (be_rndtime be) (be_ev be)
  | EFactor v => mkExtra (be_increment be) (be_overall be) v (be_formula be) (be_mults be) (be_maxtime be) (be_rndtime be) (be_ev be)
  | EFormula v => mkExtra (be_increment be) (be_overall be) (be_factor be) v (be_mults be) (be_maxtime be) (be_rndtime be) (be_ev be)
  | EMults v => mkExtra (be_increment be) (be_overall be) (be_factor be) (be_formula be) v (be_maxtime be) (be_rndtime be) (be_ev be)
  | EMax v => mkExtra (be_increment be) (be_overall be) (be_factor be) (be_formula be) (be_mults be) v (be_rndtime be) (be_ev be)
  | ERnd v => mkExtra (be_increment be) (be_overall be) (be_factor be) (be_formula be) (be_mults be) (be_maxtime be) v (be_ev be)
  end.

(** jail.py:243-267: prepare the formula *)
Definition be_prepare (be : extra) : extra :=
  mkExtra (be_increment be) (be_overall be) (be_factor be) (be_formula be) (be_mults be) (be_maxtime be) (be_rndtime be)
    (Some (mkEv (be_mults be) (match be_factor be with Some f => f | None => 1%Q end) (be_formula be)
                (be_maxtime be) (be_rndtime be))).

(** jail.py:225-267 *)
Definition set_extra (be : extra) (o : be_op) : extra :=
  let be := be_store be o in
  match o with
  | EIncrement _ | EOverall _ => match be_ev be with None => be_prepare be | Some _ => be end
  | _ => be_prepare be
  end.

(** jail.py:255: the default formula *)
Definition default_formula (time : Q) (count : Z) (factor : Q) : Q :=
  (time * inject_Z (2 ^ (if (count <? 20)%Z then count else 20)) * factor)%Q.

(** jail.py:252 [multipliers[ban.Count if ban.Count < len(multipliers) else -1]] *)
Definition pick_mult (l : list Q) (count : Z) : Q :=
  if (count <? Z.of_nat (length l))%Z then nth (Z.to_nat count) l 0%Q else last l 0%Q.

(** jail.py:250-265: the value of evformula(ban); [rnd] is random.random() *)
Definition ev_apply (ev : evformula) (time : Q) (count : Z) (rnd : Q) : Q :=
  let base := match ev_mults ev with
              | [] => Qmax time (match ev_formula ev with
                                 | Some f => f time count (ev_factor ev)
                                 | None => default_formula time count (ev_factor ev)
                                 end)
              | l => (time * ev_factor ev * pick_mult l count)%Q
              end in
  let capped := match ev_max ev with Some m => Qmin base m | None => base end in
  match ev_rnd ev with Some r => (capped + rnd * r)%Q | None => capped end.

(** ** observer.py:426-507 *)

(** What the observer reads and writes of a ticket. *)
Record oticket := mkOT {
  ot_id       : string;
  ot_time     : Z;
  ot_bantime  : option Q;        (* _banTime *)
  ot_count    : Z;               (* _banCount *)
  ot_restored : bool
}.
Definition ot_with_bantime v t := mkOT (ot_id t) (ot_time t) v (ot_count t) (ot_restored t).
Definition ot_with_count v t := mkOT (ot_id t) (ot_time t) (ot_bantime t) v (ot_restored t).
Definition ot_with_restored v t := mkOT (ot_id t) (ot_time t) (ot_bantime t) (ot_count t) v.

(** A row of database.getBan (observer.py:386, 444): ban count, time of ban, last ban time *)
Definition dbrow : Type := (Z * Z * Q)%type.

(** The jail as seen by the observer; [None] for [oj_rows] is "no database". *)
Record ojail := mkOJ {
  oj_alive : bool;
  oj_extra : extra;
  oj_rows  : option (string -> list dbrow)   (* getBan(ip, jail[, overalljails]) *)
}.

(** ticket.py:113-115 setBanCount(value) *)
Definition set_count (v : Z) (t : oticket) : oticket := if v >? ot_count t then ot_with_count v t else t.

(** observer.py:426-465 incrBanTime(jail, banTime, ticket) *)
Definition incr_ban_time (j : ojail) (banTime : Q) (t : oticket) (rnd : Q) : Q * oticket :=
  if negb (oj_alive j) then (banTime, t)
  else match oj_rows j with
  | None => (banTime, t)
  | Some rows =>
      if negb (Qle_bool banTime 0) && be_increment (oj_extra j) then
        match rows (ot_id t) with
        | [] => (banTime, t)
        | (banCount, timeOfBan, _) :: _ =>
            let t := if banCount >=? ot_count t then set_count (banCount + 1) t else t in
            if banCount >? 0 then
              match be_ev (oj_extra j) with
              | None => (banTime, t)                              (* KeyError, caught *)
              | Some ev =>
                  let banTime := ev_apply ev banTime banCount rnd in
                  let t := ot_with_bantime (Some banTime) t in
                  (banTime, if ot_time t >? timeOfBan then t else ot_with_restored true t)
              end
            else
              let t := ot_with_bantime (Some banTime) t in
              (banTime, if ot_time t >? timeOfBan then t else ot_with_restored true t)
        end
      else (banTime, t)
  end.

(** What banFound does to the outside: a row for the database, a delayed prolongation. *)
Inductive bf_effect := BStore (t : oticket) | BTimer (delay : Q).

(** observer.py:467-507 banFound(ticket, jail, btime) at time [now] *)
Definition ban_found (j : ojail) (t : oticket) (btime : Q) (now : Z) (rnd : Q)
  : oticket * list bf_effect :=
  if ot_restored t then (t, [])
  else
    let oldbtime := btime in
    let '(btime, t) :=
      if negb (Qeq_bool btime (-1)) && match ot_bantime t with None => true | Some _ => false end then
        let '(btime, t) := incr_ban_time j btime t rnd in
        (btime, if Qeq_bool btime (-1) || negb (Qle_bool btime oldbtime)
                then ot_with_bantime (Some btime) t else t)
      else (btime, t) in
    if negb (Qeq_bool btime (-1)) && negb (Qle_bool (inject_Z now) (inject_Z (ot_time t) + btime))
    then (t, [])                                                  (* observer.py:490-492 *)
    else
      (t, (if negb (Qeq_bool btime oldbtime)
           then [BTimer (Qmin 10 (Qmax 0 (btime - oldbtime - 5)))] else [])
          ++ (match oj_rows j with
              | Some _ => if ot_restored t then [] else [BStore t]
              | None => []
              end)).

(** ** observer.py:367-414 failureFound(jail, ticket)

    [rows]: what getBan yields.  Rows written by fail2ban have a ban count of at least 1;
    for a count of 0 Python gets the fraction 1.5 where the model gets 1.  [same]: the
    ticket is the object stored in the failure manager.  The last three arguments are the
    clock, the next service time of the filter and the jail's queue. *)
Definition extra_retry (banCount : Z) : Z := 2 ^ (if banCount <? 20 then banCount else 20) / 2 + 1.

Definition failure_found (alive increment : bool) (rows : option (list (Z * Z))) (tk : ticket) (same : bool)
    (fm : failmgr) (now next : Z) (queue : list ticket) : option (failmgr * ticket * Z * list ticket) :=
  let nothing := Some (fm, tk, next, queue) in
  if negb alive || negb increment then nothing
  else
    let maxRetry := fm_retry fm in
    let go banCount retryCount :=
      if retryCount <=? 1 then nothing
      else
        let '(fm, retryCount) := add_failure fm tk same (retryCount - 1) true in
        let tk := if banCount >? t_bancount tk then with_bancount banCount tk else tk in
        if retryCount >=? maxRetry then
          match perform_ban fm (Some (t_id tk)) now next queue with
          | Some (fm, next, queue) => Some (fm, tk, next, queue)
          | None => None
          end
        else Some (fm, tk, next, queue) in
    match rows with
    | None => go 0 1
    | Some [] => go 0 (Z.min 1 maxRetry)
    | Some ((bc, timeOfBan) :: _) =>
        let banCount := Z.max bc (t_bancount tk) in
        if t_time tk <=? timeOfBan then nothing
        else go banCount (Z.min (extra_retry banCount) maxRetry)
    end.

(** ** observer.py:155-289: the event queue

    Events are opaque; a handler either returns or raises and may add further events.  The
    operations of other threads and the single steps of the observer thread are arbitrarily
    interleaved. *)
Record observer := mkObs {
  ob_queue  : list nat;                 (* _queue *)
  ob_done   : list (nat * bool);        (* events executed, in order; did it raise *)
  ob_active : bool;
  ob_paused : bool;
  ob_notify : bool;                     (* _notify is not None *)
  ob_gone   : bool                      (* the thread has left run() *)
}.
Definition obs_init : observer := mkObs [] [] true false true false.

Inductive ob_op :=
| BAdd (ev : nat)             (* add / add_wn *)
| BTake                       (* one pass of the inner loop, observer.py:208-224 *)
| BPause (b : bool)           (* observer.py:334-340 *)
| BStopReq (shutdown : nat)   (* first half of stop, observer.py:269-279 *)
| BStopEnd (force : bool)     (* second half, observer.py:281-287 *)
| BLeave.                     (* end of run, observer.py:205, 238-250 *)

(** The behaviour of the handlers: raised?, events added, from the event and the past. *)
Definition handlers := list (nat * bool) -> nat -> bool * list nat.

Definition ob_step (h : handlers) (o : observer) (op : ob_op) : observer :=
  match op with
  | BAdd ev => mkObs (ob_queue o ++ [ev]) (ob_done o) (ob_active o) (ob_paused o) (ob_notify o) (ob_gone o)
  | BTake =>
      if ob_gone o || ob_paused o then o
      else match ob_queue o with
           | [] => o
           | ev :: q =>
               let '(raised, more) := h (ob_done o) ev in
               mkObs (q ++ more) (ob_done o ++ [(ev, raised)]) (ob_active o) (ob_paused o) (ob_notify o) (ob_gone o)
           end
  | BPause b => mkObs (ob_queue o) (ob_done o) (ob_active o) b (ob_notify o) (ob_gone o)
  | BStopReq sh =>
      if ob_active o && ob_notify o
      then mkObs (ob_queue o ++ [sh]) (ob_done o) (ob_active o) (ob_paused o) false (ob_gone o)
      else o
  | BStopEnd force =>
      if negb (ob_notify o) then
        if (match ob_queue o with [] => true | _ => false end) || force
        then mkObs (ob_queue o) (ob_done o) false true (ob_notify o) (ob_gone o)
        else mkObs (ob_queue o) (ob_done o) (ob_active o) (ob_paused o) true (ob_gone o)
      else o
  | BLeave =>
      if negb (ob_active o) || (negb (ob_notify o) && match ob_queue o with [] => true | _ => false end)
      then mkObs [] (ob_done o) (ob_active o) (ob_paused o) false true
      else o
  end.
Definition ob_run (h : handlers) (o : observer) (ops : list ob_op) : observer := fold_left (ob_step h) ops o.
