(** FilterPoll (fail2ban/server/filterpoll.py:46-176) with what it uses of FileFilter (filter.py:1015-1064, 1103-1176) and Filter.commonError
    (filter.py:752-760): which logs are polled and read.

    Simplifications: reading a log is described by the outcome of each of its lines, which is all that counts for errors and idleness
    (the reading itself is modelled in LogFile_Model and Filter_Model); the calls of getModified by which wait_for waits for a change
    (filterpoll.py:110-111) are passes of their own; logs are not changed by other threads during a pass; no reload is going on. *)
From Verif Require Import Base.
Local Open Scope Z_scope.

(** st_mtime, st_ino and st_size of os.stat *)
Definition stat : Type := Z * Z * Z.
Inductive outcome := St (s : stat) | OSErr | OtherErr.
(** [prev]: __prevStats, None for the (0, None, None) of a new log; [cnt]: __file404Cnt *)
Record state := mkP { logs : list string; prev : dict string (option stat); cnt : dict string Z; errors : Z; idle : bool }.
Definition init : state := mkP [] [] [] 0 false.

(** filter.py:752-760 commonError *)
Definition common_error (s : state) : state :=
  let e := errors s + 1 in
  if 100 <=? e then mkP (logs s) (prev s) (cnt s) (e / 2) true else mkP (logs s) (prev s) (cnt s) e (idle s).

Definition remove (p : string) (l : list string) : list string := filter (fun x => negb (eqb x p)) l.
(** filter.py:1015-1032 addLogPath and filterpoll.py:64-66 _addLogPath *)
Definition add_log (s : state) (p : string) : state :=
  if inb p (logs s) then s
  else mkP (logs s ++ [p]) (dset p None (prev s)) (dset p 0 (cnt s)) (errors s) (idle s).
(** filter.py:1044-1051 delLogPath and filterpoll.py:73-75 _delLogPath *)
Definition del_log (s : state) (p : string) : state :=
  if inb p (logs s) then mkP (remove p (logs s)) (ddel p (prev s)) (ddel p (cnt s)) (errors s) (idle s) else s.

(** filterpoll.py:135-173 isModified; None: an exception of another kind has no errno (158) *)
Definition is_modified (s : state) (p : string) (o : outcome) : state * option bool :=
  match o with
  | St st =>
      let s1 := mkP (logs s) (prev s) (dset p 0 (cnt s)) (errors s) (idle s) in
      if eqb (dget p (prev s)) (Some (Some st)) then (s1, Some false)
      else (mkP (logs s1) (dset p (Some st) (prev s1)) (cnt s1) (errors s1) (idle s1), Some true)
  | _ =>
      if negb (inb p (logs s)) || negb (dmem p (prev s)) then (s, Some false)
      else
        let c := match dget p (cnt s) with Some c => c | None => 0 end in
        if (c <? 2) && match o with OtherErr => true | _ => false end then (s, None)
        else
          let s1 := common_error (mkP (logs s) (prev s) (dset p (c + 1) (cnt s)) (errors s) (idle s)) in
          if 50 <? c + 1 then (del_log (mkP (logs s1) (prev s1) (dset p 0 (cnt s1)) (errors s1) (idle s1)) p, Some false)
          else (s1, Some false)
  end.
(** filterpoll.py:80-84 getModified; None: an exception *)
Fixpoint get_modified (s : state) (w : string -> outcome) (l : list string) : state * option (list string) :=
  match l with
  | [] => (s, Some [])
  | p :: r =>
      match is_modified s p (w p) with
      | (s1, None) => (s1, None)
      | (s1, Some m) =>
          match get_modified s1 w r with
          | (s2, Some q) => (s2, Some (if m then p :: q else q))
          | (s2, None) => (s2, None)
          end
      end
  end.

(** What reading a log brings: its lines, processed or failed; or an exception (filter.py:1141) *)
Inductive reading := Lines (l : list bool) | Raise.
(** filter.py:1147-1157 with 745-750: until there is no line or the filter is idle *)
Fixpoint read_lines (s : state) (l : list bool) : state :=
  match l with
  | [] => s
  | ok :: r =>
      if idle s then s
      else read_lines (if ok then mkP (logs s) (prev s) (cnt s) (errors s / 2) (idle s) else common_error s) r
  end.
(** filterpoll.py:114-115 with filter.py:1103-1161 getFailures: the logs that were read; [false]: ended by an exception *)
Fixpoint read_all (s : state) (w : string -> reading) (l : list string) : state * list string * bool :=
  match l with
  | [] => (s, [], true)
  | p :: r =>
      if idle s then read_all s w r
      else
        match w p with
        | Raise => (s, [p], false)
        | Lines k => let '(s1, q, ok) := read_all (read_lines s k) w r in (s1, p :: q, ok)
        end
  end.

Inductive op := Add (p : string) | Del (p : string) | SetIdle (b : bool) | Pass (stats : string -> outcome) (reads : string -> reading).
Inductive answer := Done | Asleep | Polled (reads : list string) | Failed (reads : list string) | NotPolled.
(** filterpoll.py:95-127 one turn of the main loop; [NotPolled]: getModified ended by an exception, [Failed]: getFailures did *)
Definition step (s : state) (o : op) : state * answer :=
  match o with
  | Add p => (add_log s p, Done)
  | Del p => (del_log s p, Done)
  | SetIdle b => (mkP (logs s) (prev s) (cnt s) (errors s) b, Done)
  | Pass stats reads =>
      if idle s then (s, Asleep)
      else
        match get_modified s stats (logs s) with
        | (s1, None) => (common_error s1, NotPolled)
        | (s1, Some l) =>
            let '(s2, q, ok) := read_all s1 reads l in
            if ok then (s2, Polled q) else (common_error s2, Failed q)
        end
  end.
Fixpoint run (s : state) (ops : list op) : state * list answer :=
  match ops with
  | [] => (s, [])
  | o :: r => let (s1, a) := step s o in let (s2, l) := run s1 r in (s2, a :: l)
  end.
