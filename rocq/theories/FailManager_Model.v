(** Model of fail2ban/server/failmanager.py (whole class FailManager).

    Simplifications: the lock makes each method atomic, so a method is one step;
    logging and the background service (garbage collection, failmanager.py:123, 148,
    164) have no effect on the state and are left out. *)
From Verif Require Import Base Ticket_Model.

(** failmanager.py:40-47 *)
Record failmgr := mkFM {
  fm_list    : dict string ticket;   (* __failList *)
  fm_retry   : Z;                    (* __maxRetry *)
  fm_time    : Z;                    (* __maxTime (findtime) *)
  fm_total   : Z;                    (* __failTotal *)
  fm_maxm    : nat                   (* maxMatches *)
}.

Definition fm_init : failmgr :=
  {| fm_list := []; fm_retry := 3; fm_time := 600; fm_total := 0; fm_maxm := 5 |}.

Definition with_list l fm := {| fm_list := l; fm_retry := fm_retry fm; fm_time := fm_time fm;
  fm_total := fm_total fm; fm_maxm := fm_maxm fm |}.
Definition with_total n fm := {| fm_list := fm_list fm; fm_retry := fm_retry fm;
  fm_time := fm_time fm; fm_total := n; fm_maxm := fm_maxm fm |}.

(** failmanager.py:92-97: truncate the matches of the stored ticket *)
Definition truncate (maxm : nat) (t : ticket) : ticket :=
  match maxm with
  | O => set_matches [] t
  | _ => let m := get_matches t in
         if Nat.ltb maxm (length m) then set_matches (last_n maxm m) t else t
  end.

(** failmanager.py:77-97: the [try] block.
    [None]: the ID is not in the list (KeyError of the lookup, nothing changed);
    [Some (t', true)]: KeyError raised inside [inc] after mutation;
    [Some (t', false)]: normal end.
    [same] is the test [fData is ticket] (failmanager.py:79). *)
Definition add_known (fm : failmgr) (tk : ticket) (same : bool) (count : Z)
  : option (ticket * bool) :=
  match dget (t_id tk) (fm_list fm) with
  | None => None
  | Some fData =>
      let matches := if same then None
                     else match fm_maxm fm with O => None | _ => Some (get_matches tk) end in
      let attempt := if same then 1
                     else if t_failures tk <=? 0 then t_failures tk + 1 else t_failures tk in
      let fData := adjust_time (t_time tk) (fm_time fm) fData in
      match inc matches attempt count fData with
      | (fData, true) => Some (fData, true)
      | (fData, false) => Some (truncate (fm_maxm fm) fData, false)
      end
  end.

(** failmanager.py:98-109: the [except KeyError] block, in the case that stores the ticket. *)
Definition first_entry (tk : ticket) (count : Z) : ticket :=
  if count >? t_failures tk then set_retry count tk else tk.

(** failmanager.py:72-124 addFailure(ticket, count, observed).  With [same] the argument
    is the very object stored under its ID; callers pass [tk] equal to that object. *)
Definition add_failure (fm : failmgr) (tk : ticket) (same : bool) (count : Z) (observed : bool)
  : failmgr * Z :=
  let except (fm : failmgr) :=
    if observed || t_isban tk then (fm, t_retry tk)
    else let f := first_entry tk count in
         (with_total (fm_total fm + 1) (with_list (dset (t_id tk) f (fm_list fm)) fm), t_retry f)
  in
  match add_known fm tk same count with
  | None => except fm
  | Some (f, true) => except (with_list (dset (t_id tk) f (fm_list fm)) fm)
  | Some (f, false) =>
      (with_total (fm_total fm + 1) (with_list (dset (t_id tk) f (fm_list fm)) fm), t_retry f)
  end.

(** failmanager.py:129-148 cleanup(time).  The float test
    [len(todelete)/2.0 <= len(failList)/3.0] is written without division. *)
Definition cleanup (fm : failmgr) (time : Z) : failmgr :=
  let thr := time - fm_time fm in
  let todelete := map fst (filter (fun kv => t_time (snd kv) <=? thr) (fm_list fm)) in
  let rest l :=
    if Nat.leb (3 * length todelete) (2 * length l)
    then fold_left (fun d k => ddel k d) todelete l
    else filter (fun kv => t_time (snd kv) >? thr) l in
  if Nat.eqb (length todelete) (length (fm_list fm)) then with_list (rest []) fm
  else match todelete with
       | [] => fm
       | _ => with_list (rest (fm_list fm)) fm
       end.

(** failmanager.py:150-155 delFailure(fid) *)
Definition del_failure (fm : failmgr) (id : string) : failmgr :=
  with_list (ddel id (fm_list fm)) fm.

(** failmanager.py:159-163: first entry of [l] whose counter reached the limit *)
Fixpoint first_bannable (maxRetry : Z) (l : dict string ticket) : option (string * ticket) :=
  match l with
  | [] => None
  | (k, t) :: r => if t_retry t >=? maxRetry then Some (k, t) else first_bannable maxRetry r
  end.

(** failmanager.py:157-165 toBan(fid); [None] is FailManagerEmpty. *)
Definition to_ban (fm : failmgr) (id : option string) : failmgr * option ticket :=
  let candidates := match id with
                    | Some i => match dget i (fm_list fm) with
                                | Some t => [(i, t)]
                                | None => fm_list fm
                                end
                    | None => fm_list fm
                    end in
  match first_bannable (fm_retry fm) candidates with
  | Some (k, t) => (with_list (ddel k (fm_list fm)) fm, Some t)
  | None => (fm, None)
  end.

(** Method calls as operations, so that histories are lists. *)
Inductive fm_op :=
| FAdd (tk : ticket) (count : Z) (observed : bool)      (* a ticket object not in the list *)
| FAddSame (id : string) (count : Z) (observed : bool)  (* the stored object itself again *)
| FCleanup (time : Z)
| FDel (id : string)
| FToBan (id : option string)
| FSetRetry (n : Z)                                     (* failmanager.py:60-61 *)
| FSetTime (n : Z)                                      (* failmanager.py:66-67 *)
| FSetMatches (n : nat).                                (* maxMatches = n *)

Inductive fm_out := ONone | OCount (n : Z) | OTicket (t : option ticket).

Definition fm_step (fm : failmgr) (o : fm_op) : failmgr * fm_out :=
  match o with
  | FAdd tk count obs => let '(fm', n) := add_failure fm tk false count obs in (fm', OCount n)
  | FAddSame id count obs =>
      match dget id (fm_list fm) with
      | Some tk => let '(fm', n) := add_failure fm tk true count obs in (fm', OCount n)
      | None => (fm, ONone)             (* no such object: not a call *)
      end
  | FCleanup t => (cleanup fm t, ONone)
  | FDel id => (del_failure fm id, ONone)
  | FToBan id => let '(fm', r) := to_ban fm id in (fm', OTicket r)
  | FSetRetry n => ({| fm_list := fm_list fm; fm_retry := n; fm_time := fm_time fm;
                       fm_total := fm_total fm; fm_maxm := fm_maxm fm |}, ONone)
  | FSetTime n => ({| fm_list := fm_list fm; fm_retry := fm_retry fm; fm_time := n;
                      fm_total := fm_total fm; fm_maxm := fm_maxm fm |}, ONone)
  | FSetMatches n => ({| fm_list := fm_list fm; fm_retry := fm_retry fm; fm_time := fm_time fm;
                         fm_total := fm_total fm; fm_maxm := n |}, ONone)
  end.

(** A history: final state and the outputs, in order. *)
Fixpoint fm_run (fm : failmgr) (ops : list fm_op) : failmgr * list fm_out :=
  match ops with
  | [] => (fm, [])
  | o :: r => let '(fm', out) := fm_step fm o in
              let '(fm'', outs) := fm_run fm' r in (fm'', out :: outs)
  end.

(** filter.py:449-458 performBan(ip), the loop [while True] without the service part:
    move bannable tickets to the jail queue (jail.py:205-210 putFailTicket), all of them
    when no ip is given, at most one when an ip is given.  Every round but the last
    removes one list entry, so the fuel is the number of entries plus one; running out of
    fuel is [None]. *)
Fixpoint ban_loop (fuel : nat) (fm : failmgr) (id : option string) (queue : list ticket)
  : option (failmgr * list ticket) :=
  match fuel with
  | O => None
  | S f => match to_ban fm id with
           | (fm', Some t) =>
               match id with
               | Some _ => Some (fm', queue ++ [t])
               | None => ban_loop f fm' id (queue ++ [t])
               end
           | (fm', None) => Some (fm', queue)
           end
  end.

(** filter.py:460-467 performSvc(force=False): at most one clean up per 5 seconds.
    [next] is __nextSvcTime. *)
Definition perform_svc (fm : failmgr) (now next : Z) : failmgr * Z :=
  if now >=? next then (cleanup fm now, now + 5) else (fm, next).

(** filter.py:449-458 *)
Definition perform_ban (fm : failmgr) (id : option string) (now next : Z) (queue : list ticket)
  : option (failmgr * Z * list ticket) :=
  match ban_loop (S (length (fm_list fm))) fm id queue with
  | Some (fm', q) => let '(fm'', nx) := perform_svc fm' now next in Some (fm'', nx, q)
  | None => None
  end.
