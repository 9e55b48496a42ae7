(** FileFilter.seekToTime (fail2ban/server/filter.py:1183-1268): the search for the place in a log where a time begins.

    Simplifications: the file does not change during the search; the handle is open (filter.py:1446-1448 opens it otherwise);
    the date detector is a function of the line; counters for the debug message and foundPos/foundTime, which are not used
    for the result, are left out. *)
From Verif Require Import Base Text LogFile_Model.
Local Open Scope nat_scope.

(** dateDetector.matchTime and getTime for a line: no match, or a match with or without a time *)
Inductive stamp := NoMatch | Match (t : option Z).

Section Seek.
Context (d : bytes) (dt : bytes -> stamp) (date : Z).

(** filter.py:1445-1456 FileContainer.seek with endLine: to the start of the next line, unless [offs] is 0 *)
Definition seek (offs : nat) : nat := if offs =? 0 then 0 else offs + length (read_raw d offs).

(** filter.py:1213-1234 the next lines, from [cur]: the first with a time.  The answer: pos, nextp, where the file stands, the time *)
Fixpoint probe (lncntr : nat) (maxp seekpos cur pos : nat) (nextp : option nat) : nat * option nat * nat * option Z :=
  match read_raw d cur with
  | [] => (pos, nextp, cur, None)
  | line =>
      let cur := cur + length line in
      match dt line with
      | Match (Some t) => (pos, nextp, cur, Some t)
      | Match None => match lncntr with S n => probe n maxp seekpos cur pos nextp | 0 => (pos, nextp, cur, None) end
      | NoMatch =>
          if maxp <? cur then (seekpos, Some cur, cur, None)
          else match lncntr with S n => probe n maxp seekpos cur cur (Some cur) | 0 => (cur, Some cur, cur, None) end
      end
  end.

Record search := mkSearch { minp : nat; maxp : nat; try_pos : option nat; last_pos : option nat; movecntr : nat }.
(** filter.py:1235-1255 pos, minp and maxp after a probe *)
Definition narrow (a b : nat) (p : nat) : nat * nat * nat :=
  let '(pos, nextp, tell, t) := probe 5 b p p p None in
  match t with
  | None => (pos, a, b)
  | Some t =>
      if (date <=? t)%Z then
        let pos := if pos =? b then p else pos in
        (pos, a, if pos <? b then pos else b)
      else
        let pos := match nextp with Some n => n | None => tell end in
        (pos, if a <? pos then pos else a, b)
  end.
(** filter.py:1198-1265 one turn of the loop; [inr]: the loop ends *)
Definition turn (s : search) : search + nat :=
  if minp s <? maxp s then
    let pos := match try_pos s with Some p => p | None => minp s + (maxp s - minp s) / 2 end in
    let '(pos, a, b) := narrow (minp s) (maxp s) (seek (pos - 2)) in
    if eqb (Some pos) (last_pos s) then
      if movecntr s - 1 =? 0 then inr a
      else if negb (eqb (Some a) (last_pos s)) then inl (mkSearch a b (Some a) (Some a) (movecntr s - 1))
      else inr a
    else inl (mkSearch a b None (Some pos) (movecntr s))
  else inr (minp s).
Fixpoint loop (fuel : nat) (s : search) : option nat :=
  match fuel with
  | 0 => None
  | S fuel => match turn s with inl s => loop fuel s | inr p => Some p end
  end.
(** filter.py:1183-1268 the new position; [start] is the position of the container; [fuel] bounds the turns of the loop *)
Definition seek_to_time (fuel : nat) (start : nat) : option nat :=
  match d with [] => Some start | _ => loop fuel (mkSearch start (length d) (Some start) None 3) end.
End Seek.
