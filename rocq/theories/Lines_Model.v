(** Model of the line handling of regular expressions: fail2ban/server/failregex.py:217-256
    (_tupleLinesBuf, search) and 311-329 (getSkippedLines).

    Simplifications: the regular expression engine is a function from the text of the buffer to
    what it found (or nothing); texts are lists of characters of the first 256 code points, so the
    line ends U+2028 and U+2029 of splitlines() are left out. *)
From Verif Require Import Base Text.

(** A line split at its time stamp: before, time stamp, behind (filter.py:641-659). *)
Definition line := (text * text * text)%type.
Definition nl : ascii := "010"%char.

(** failregex.py:226-227; ["".join(v[::2])] is the line without its time stamp *)
Definition shown (l : line) : text := let '(a, _, b) := l in a ++ b.
Definition lines_buf (ls : list line) : text := join [nl] (map shown ls) ++ [nl].

(** A match: where it starts and ends, the named groups (None: not taken part in the match) and
    the groups skiplines0, skiplines1, ... *)
Record rmatch := mkM { m_start : nat; m_end : nat; m_groups : dict string (option text); m_skips : list (option text) }.
Definition pattern := text -> option rmatch.

(** Python: s.count("\n", 0, n) *)
Definition count_nl (s : text) (n : nat) : nat := length (filter (fun c => eqb c nl) (firstn n s)).
(** Python: s.rindex("\n", 0, n); None is the ValueError *)
Fixpoint rindex_nl (s : text) (n : nat) : option nat :=
  match n, s with
  | O, _ | _, [] => None
  | S n', c :: r => match rindex_nl r n' with
                    | Some i => Some (S i)
                    | None => if eqb c nl then Some O else None
                    end
  end.
(** Python: s.index("\n", n) *)
Fixpoint index_nl (s : text) (n : nat) : option nat :=
  match s with
  | [] => None
  | c :: r => match n with
              | O => if eqb c nl then Some O else option_map S (index_nl r O)
              | S n' => option_map S (index_nl r n')
              end
  end.

(** Python: splitlines(False) *)
Definition line_end (c : ascii) : bool :=
  existsb (eqb c) ["010"; "011"; "012"; "013"; "028"; "029"; "030"; "133"]%char.
Fixpoint splitlines (s : text) : list text :=
  match s with
  | [] => []
  | c :: r =>
      if line_end c then
        [] :: match r with
              | d :: r' => if eqb c "013"%char && eqb d "010"%char then splitlines r' else splitlines r
              | [] => []
              end
      else match splitlines r with
           | [] => [[c]]
           | t :: ts => (c :: t) :: ts
           end
  end.

(** failregex.py:311-329 getSkippedLines() *)
Definition skipped_lines (m : rmatch) : list text :=
  splitlines (concat (map (fun g => match g with Some t => t | None => [] end) (m_skips m))).

(** failregex.py:250-255: index of the first of the lines with this text *)
Fixpoint find_shown (t : text) (ls : list line) : option nat :=
  match ls with
  | [] => None
  | l :: r => if eqb (shown l) t then Some O else option_map S (find_shown t r)
  end.
(** failregex.py:247-256: each skipped line is looked up behind the previous one and moved from
    the matched lines to the unmatched ones.  [front] are the first n matched lines, [rest] the
    others. *)
Fixpoint move_skipped (skips : list text) (front rest unmatched : list line) : list line * list line :=
  match skips with
  | [] => (front ++ rest, unmatched)
  | t :: ts =>
      match find_shown t rest with
      | Some m => move_skipped ts (front ++ firstn m rest) (skipn (S m) rest) (unmatched ++ firstn 1 (skipn m rest))
      | None => move_skipped ts front rest unmatched
      end
  end.

(** failregex.py:217-256 search(buf, orgLines): the match, the matched and the unmatched lines *)
Record found := mkFound { fd_match : rmatch; fd_matched : list line; fd_unmatched : list line }.
Definition search (p : pattern) (buf : text) (org : list line) : option found :=
  match p buf with
  | None => None
  | Some m =>
      Some (if Nat.leb (length org) 1 then mkFound m org []
            else
              let line_start := match rindex_nl buf (m_start m + 1) with Some i => S i | None => O end in
              let from := match m_end m with O => Nat.pred (length buf) | S e => e end in    (* index -1 counts from the end *)
              let line_end := match index_nl buf from with Some i => S i | None => length buf end in
              let count1 := count_nl buf line_start in
              let count2 := count_nl buf line_end in
              let '(matched, unmatched) :=
                move_skipped (skipped_lines m) [] (skipn count1 (firstn count2 org)) (firstn count1 org) in
              mkFound m matched (unmatched ++ skipn count2 org))
  end.

(** An example: "a", "x", "b" with the regular expression a<SKIPLINES>b. *)
Definition ln (s : string) : line := ([], [], tx s).
Example search_demo : option_map (fun f => (fd_matched f, fd_unmatched f))
  (search (fun _ => Some (mkM 2 7 [] [Some (tx "x" ++ [nl])])) (lines_buf [ln "o"; ln "a"; ln "x"; ln "b"; ln "c"]) [ln "o"; ln "a"; ln "x"; ln "b"; ln "c"])
  = Some ([ln "a"; ln "b"], [ln "o"; ln "x"; ln "c"]).
Proof. vm_compute. reflexivity. Qed.
