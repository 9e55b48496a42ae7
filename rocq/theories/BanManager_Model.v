(** Model of fail2ban/server/banmanager.py (class BanManager; the WHOIS helpers
    banmanager.py:122-259 are not modelled).

    Simplifications: each method runs under the lock, so it is one step; the clock is an
    argument; a ticket object shared with other threads is modelled by the operation
    [BMutate] (ticket.setBanTime called by the observer on the stored object). *)
From Verif Require Import Base Ticket_Model.

(** banmanager.py:50-60 *)
Record banmgr := mkBM {
  bm_list  : dict string ticket;   (* __banList *)
  bm_time  : Z;                    (* __banTime, -1 = permanent *)
  bm_total : Z;                    (* __banTotal *)
  bm_next  : Z                     (* _nextUnbanTime *)
}.

Definition bm_init : banmgr := {| bm_list := []; bm_time := 600; bm_total := 0; bm_next := MAX_TIME |}.

Definition bm_with_list l bm :=
  {| bm_list := l; bm_time := bm_time bm; bm_total := bm_total bm; bm_next := bm_next bm |}.

(** What addBanTicket reports through its [reason] dictionary and result. *)
Inductive add_result :=
| AExpired                 (* reason['expired'] = 1, False *)
| AAdded                   (* True *)
| AKnown                   (* already banned, False *)
| AProlonged.              (* already banned, reason['prolong'] = 1, False *)

(** banmanager.py:283-289: ban time given to the known ticket *)
Definition prolonged_time (dflt : Z) (tk old : ticket) : Z :=
  let btm := get_bantime dflt tk in
  if btm =? -1 then btm
  else let diftm := t_time tk - t_time old in
       if diftm >? 0 then btm + diftm else btm.

(** banmanager.py:268-298 addBanTicket(ticket) at time [now] *)
Definition add_ban (bm : banmgr) (tk : ticket) (now : Z) : banmgr * add_result :=
  let eob := end_of_ban (bm_time bm) tk in
  if eob <? now then (bm, AExpired)
  else match dget (t_id tk) (bm_list bm) with
       | Some old =>
           if eob >? end_of_ban (bm_time bm) old
           then let old' := with_bantime (Some (prolonged_time (bm_time bm) tk old)) old in
                (bm_with_list (dset (t_id tk) old' (bm_list bm)) bm, AProlonged)
           else (bm, AKnown)
       | None =>
           ({| bm_list := dset (t_id tk) (incr_bancount tk) (bm_list bm);
               bm_time := bm_time bm; bm_total := bm_total bm + 1;
               bm_next := if bm_next bm >? eob then eob else bm_next bm |}, AAdded)
       end.

(** banmanager.py:334-345: the search loop.  [cnt] = len(unBanList) so far, [nxt] the
    local nextUnbanTime, [old] = self._nextUnbanTime.  Returns the collected entries and
    the new next unban time. *)
Fixpoint unban_scan (dflt time : Z) (maxCount cnt : nat) (old nxt : Z) (l : dict string ticket)
  : list (string * ticket) * Z :=
  match l with
  | [] => ([], nxt)
  | (fid, tk) :: r =>
      let eob := end_of_ban dflt tk in
      if time >? eob then
        if Nat.leb maxCount (S cnt) then ([(fid, tk)], old)
        else let '(c, n) := unban_scan dflt time maxCount (S cnt) old nxt r in ((fid, tk) :: c, n)
      else if nxt >? eob then unban_scan dflt time maxCount cnt old eob r
           else unban_scan dflt time maxCount cnt old nxt r
  end.

(** banmanager.py:349-357: remove the collected entries, by one of two ways *)
Definition remove_collected (c l : dict string ticket) : dict string ticket :=
  match c with
  | [] => l
  | _ => if Nat.leb (3 * length c) (2 * length l)
         then fold_left (fun d k => ddel k d) (dkeys c) l
         else filter (fun kv => negb (dmem (fst kv) c)) l
  end.

(** banmanager.py:326-360 unBanList(time, maxCount) *)
Definition unban_list (bm : banmgr) (time : Z) (maxCount : nat) : banmgr * list ticket :=
  if bm_next bm >? time then (bm, [])
  else let '(c, n) := unban_scan (bm_time bm) time maxCount 0 (bm_next bm) MAX_TIME (bm_list bm) in
       ({| bm_list := remove_collected c (bm_list bm); bm_time := bm_time bm;
           bm_total := bm_total bm; bm_next := n |}, dvals c).

(** banmanager.py:368-372 flushBanList() *)
Definition flush_ban_list (bm : banmgr) : banmgr * list ticket :=
  (bm_with_list [] bm, dvals (bm_list bm)).

(** banmanager.py:378-386 getTicketByID(fid): removes and returns *)
Definition pop_ticket (bm : banmgr) (id : string) : banmgr * option ticket :=
  match dget id (bm_list bm) with
  | Some t => (bm_with_list (ddel id (bm_list bm)) bm, Some t)
  | None => (bm, None)
  end.

(** banmanager.py:68-69 setBanTime(value) *)
Definition set_ban_time (bm : banmgr) (v : Z) : banmgr :=
  {| bm_list := bm_list bm; bm_time := v; bm_total := bm_total bm; bm_next := bm_next bm |}.

(** banmanager.py:101-116 getBanList(ordered=True): stable sort by end of ban.
    [list.sort] is modelled by insertion sort, which is stable. *)
Fixpoint insert_by (key : ticket -> Z) (x : ticket) (l : list ticket) : list ticket :=
  match l with
  | [] => [x]
  | y :: r => if key x <? key y then x :: y :: r else y :: insert_by key x r
  end.
Definition sort_by (key : ticket -> Z) (l : list ticket) : list ticket :=
  fold_left (fun acc x => insert_by key x acc) l [].
Definition ban_list_ordered (bm : banmgr) : list string :=
  map t_id (sort_by (end_of_ban (bm_time bm)) (dvals (bm_list bm))).
(** banmanager.py:102-103 getBanList() *)
Definition ban_list (bm : banmgr) : list string := dkeys (bm_list bm).

Inductive bm_op :=
| BAdd (tk : ticket) (now : Z)
| BUnban (time : Z) (maxCount : nat)
| BFlush
| BPop (id : string)
| BSetTime (v : Z)
| BMutate (id : string) (bt : Z).     (* observer: setBanTime on the stored ticket *)

Inductive bm_out :=
| RAdd (r : add_result)
| RList (l : list ticket)
| RTicket (t : option ticket)
| RNone.

Definition bm_step (bm : banmgr) (o : bm_op) : banmgr * bm_out :=
  match o with
  | BAdd tk now => let '(bm', r) := add_ban bm tk now in (bm', RAdd r)
  | BUnban time n => let '(bm', l) := unban_list bm time n in (bm', RList l)
  | BFlush => let '(bm', l) := flush_ban_list bm in (bm', RList l)
  | BPop id => let '(bm', t) := pop_ticket bm id in (bm', RTicket t)
  | BSetTime v => (set_ban_time bm v, RNone)
  | BMutate id bt =>
      match dget id (bm_list bm) with
      | Some t => (bm_with_list (dset id (with_bantime (Some bt) t) (bm_list bm)) bm, RNone)
      | None => (bm, RNone)
      end
  end.

Fixpoint bm_run (bm : banmgr) (ops : list bm_op) : banmgr * list bm_out :=
  match ops with
  | [] => (bm, [])
  | o :: r => let '(bm', out) := bm_step bm o in
              let '(bm'', outs) := bm_run bm' r in (bm'', out :: outs)
  end.
