(** Model of fail2ban-regex: fail2ban/client/fail2banregex.py:489-555 (_onIgnoreRegex, testRegex), 620-659 (process),
    661-690 (printLines), and of fail2ban/server/filter.py:632-694 and 762-780, 858-989 (processLine, _ignoreLine,
    findFailure) as used by it: checkFindTime off, ignorePending off, onIgnoreRegex set; checkAllRegex ([all]) on unless asked otherwise.

    Simplifications: no --out, no debuggex, no statistics of prefregex and of date templates, no lists of addresses; what is said in
    Filter_Model about the line applies here; the counters of the expressions ([RegexStat]) are the list of their increments;
    an exception that is not a RegexException ends the program. *)
From Verif Require Import Base Text IPAddr_Model Utils_Model Lines_Model Session_Model Ignore_Model Ticket_Model FailManager_Model Filter_Model.
Local Open Scope string_scope. Local Open Scope list_scope. Local Open Scope Z_scope.

Record opts := mkOpts {
  o_limit       : Z;       (* _maxlines: the lines that are printed, 20 by default *)
  o_all         : bool;    (* checkAllRegex *)
  o_all_matched : bool;    (* --print-all-matched *)
  o_all_missed  : bool;
  o_all_ignored : bool;
  o_no_missed   : bool;    (* --print-no-missed *)
  o_no_ignored  : bool
}.
Definition entry : Type := nat * option ipaddr * fail.        (* [failRegexIndex, fid, date, fail] *)

(** filter.py:762-780, _ignoreLine: the ignoreregex that match *)
Fixpoint matching (p : list pattern) (n : nat) (buf : text) : list nat :=
  match p with
  | [] => []
  | r :: rest => match r buf with Some _ => n :: matching rest (S n) buf | None => matching rest (S n) buf end
  end.
Definition ignoring (all : bool) (cfg : fcfg) (buf : text) (f : option found) : list nat :=
  let buf := match f with
             | Some f => if Nat.ltb 1 (c_maxlines cfg) then lines_buf (fd_matched f) else buf
             | None => buf
             end in
  let l := matching (c_ignore cfg) 0 buf in if all then l else firstn 1 l.

(** filter.py:921-985 for one match *)
Inductive tverdict := TQuiet | TNone | TError | TFound (ids : list (option ipaddr)) (f : fail).
Definition of_verdict (v : verdict) (f : fail) : tverdict :=
  match v with
  | VQuiet => TQuiet
  | VWait => TFound [None] f
  | VNone => TNone
  | VError => TError
  | VFound ids f => TFound (map Some ids) f
  end.
Definition tool_match (all : bool) (c : sessions) (now : Z) (raw : bool) (dns : text -> list ipaddr) (cur : groups) (matched : list line) : sessions * tverdict :=
  match gtext cur "mlfid" with
  | Some id =>
      let '(c, f) := merge_failure c now id cur matched in
      if truthy (f_groups f) "nofail" && negb all then (poke c (key id) f, TQuiet)
      else let '(v, f) := identify raw dns true f in (poke c (key id) f, of_verdict v f)
  | None => let '(v, f) := identify raw dns false (mkFail cur [] matched [] false None) in (c, of_verdict v f)
  end.

(** What one line gives: the buffer and the sessions as they are left, the failures, the ignoreregex that matched *)
Record result := mkR { r_buf : list line; r_sess : sessions; r_found : list entry; r_ign : list nat }.
Definition more (e : list entry) (i : list nat) (r : option result) : option result :=
  option_map (fun r => mkR (r_buf r) (r_sess r) (e ++ r_found r) (i ++ r_ign r)) r.
(** filter.py:888-989; [None]: an exception *)
Fixpoint tool_loop (all : bool) (cfg : fcfg) (w : fworld) (org : list line) (pre : groups) (regs : list pattern) (n : nat)
    (buf : text) (lb : list line) (s : sessions) : option result :=
  match regs with
  | [] => Some (mkR lb s [] [])
  | r :: rest =>
      match search r buf org with
      | None => tool_loop all cfg w org pre rest (S n) buf lb s
      | Some f =>
          let changes := negb all || Nat.ltb 1 (c_maxlines cfg) in
          let lb' := if changes then fd_unmatched f else lb in
          match ignoring all cfg buf (Some f) with
          | i :: is => if all then more [] (i :: is) (tool_loop all cfg w org pre rest (S n) (lines_buf lb') lb' s)
                       else Some (mkR lb' s [] (i :: is))
          | [] =>
              let buf' := if changes then lines_buf lb' else buf in
              let '(s, v) := tool_match all s (fw_now w) (c_raw cfg) (fw_dns w) (update_all pre (m_groups (fd_match f))) (fd_matched f) in
              match v with
              | TNone => tool_loop all cfg w org pre rest (S n) buf' lb' s
              | TError => None
              | TQuiet => Some (mkR lb' s [] [])
              | TFound ids fl =>
                  let e := map (fun i => (n, i, fl)) ids in
                  if all then more e [] (tool_loop all cfg w org pre rest (S n) buf' lb' s)
                  else Some (mkR lb' s e [])
              end
          end
      end
  end.
(** filter.py:858-886 *)
Definition tool_find (all : bool) (cfg : fcfg) (w : fworld) (lb : list line) (s : sessions) (l : line) : option result :=
  let org := if Nat.ltb 1 (c_maxlines cfg) then last_lines (c_maxlines cfg) (lb ++ [l]) else [l] in
  let buf := lines_buf org in
  let early := if negb (Nat.eqb (length (c_ignore cfg)) 0) && (Z.of_nat (length (c_ignore cfg)) <? Z.of_nat (length (c_fail cfg)) - 2)
               then ignoring all cfg buf None else [] in
  match early with
  | _ :: _ => Some (mkR org s [] early)
  | [] =>
      match c_pref cfg with
      | None => tool_loop all cfg w org [] (c_fail cfg) 0 buf org s
      | Some p =>
          match search p buf org with
          | None => Some (mkR org s [] [])
          | Some f =>
              let g := m_groups (fd_match f) in
              let pre := ddel "content" g in
              match gtext g "content" with
              | Some (c :: r) => let lb := [([], [], c :: r)] in tool_loop all cfg w org pre (c_fail cfg) 0 (lines_buf lb) lb s
              | _ => tool_loop all cfg w org pre (c_fail cfg) 0 buf org s
              end
          end
      end
  end.

(** fail2banregex.py:221-238, LineStats, and the counters of the expressions *)
Record stats := mkS {
  tested : Z; matched : Z; missed : Z; ignored : Z;
  matched_lines : list text; missed_lines : list text; ignored_lines : list text;
  fail_hits : list nat; ignore_hits : list nat
}.
Record tool := mkTool { t_buf : list line; t_sess : sessions; t_text : text; t_date : option Z; t_stats : stats }.
Definition tool_init : tool := mkTool [] no_sessions [] None (mkS 0 0 0 0 [] [] [] [] []).

(** list.pop(list.index(x)), nothing if it is not there *)
Fixpoint pop_first (x : text) (l : list text) : list text :=
  match l with [] => [] | y :: r => if eqb x y then r else y :: pop_first x r end.
Definition whole (l : line) : text := let '(a, t, b) := l in a ++ t ++ b.
(** fail2banregex.py:533-551: with more than one line, lines that left the buffer count as matched instead of missed *)
Definition recount (o : opts) (left_ : list line) (st : stats) : stats :=
  fold_left (fun st l =>
    mkS (tested st) (matched st + 1) (missed st - 1) (ignored st)
        (if o_all_matched o then matched_lines st ++ [whole l] else matched_lines st) (pop_first (whole l) (missed_lines st)) (ignored_lines st)
        (fail_hits st) (ignore_hits st)) left_ st.
Definition in_buffer (l : line) (b : list line) : bool := existsb (eqb l) b.
(** The numbers and lines for one more line, fail2banregex.py:638-657 *)
Inductive kind := KMatched | KIgnored | KMissed.
Definition count_line (o : opts) (k : kind) (t : text) (st : stats) : stats :=
  match k with
  | KIgnored =>
      let n := ignored st + 1 in
      mkS (tested st + 1) (matched st) (missed st) n (matched_lines st) (missed_lines st)
          (if negb (o_no_ignored o) && (o_all_ignored o || (n <=? o_limit o + 1)) then ignored_lines st ++ [t] else ignored_lines st) (fail_hits st) (ignore_hits st)
  | KMatched =>
      mkS (tested st + 1) (matched st + 1) (missed st) (ignored st)
          (if o_all_matched o then matched_lines st ++ [t] else matched_lines st) (missed_lines st) (ignored_lines st) (fail_hits st) (ignore_hits st)
  | KMissed =>
      let n := missed st + 1 in
      mkS (tested st + 1) (matched st) n (ignored st) (matched_lines st)
          (if negb (o_no_missed o) && (o_all_missed o || (n <=? o_limit o + 1)) then missed_lines st ++ [t] else missed_lines st) (ignored_lines st) (fail_hits st) (ignore_hits st)
  end.
(** fail2banregex.py:500-512, 638-650: what is said of the line *)
Definition nofail (e : entry) : bool := truthy (f_groups (snd e)) "nofail".
Definition kind_of (r : result) : kind :=
  if existsb nofail (r_found r) || negb (Nat.eqb (length (r_ign r)) 0) then KIgnored
  else if existsb (fun e => negb (nofail e)) (r_found r) then KMatched
  else KMissed.
(** fail2banregex.py:493-555 and 638-657 *)
Definition tool_line (o : opts) (cfg : fcfg) (w : fworld) (T : tool) (i : input) (t : text) : option (tool * kind) :=
  let '(lt, ld, l, _) := line_date w false (t_text T) (t_date T) i in
  match tool_find (o_all o) cfg w (t_buf T) (t_sess T) l with
  | None => None
  | Some r =>
      let st := t_stats T in
      let st := mkS (tested st) (matched st) (missed st) (ignored st) (matched_lines st) (missed_lines st) (ignored_lines st)
                    (fail_hits st ++ map (fun e => fst (fst e)) (r_found r)) (ignore_hits st ++ r_ign r) in
      let before := if Nat.leb (c_maxlines cfg) (length (t_buf T)) then skipn 1 (t_buf T) else t_buf T in
      let st := if Nat.ltb 1 (c_maxlines cfg) then recount o (filter (fun b => negb (in_buffer b (r_buf r))) before) st else st in
      Some (mkTool (r_buf r) (r_sess r) lt ld (count_line o (kind_of r) t st), kind_of r)
  end.
(** fail2banregex.py:624-633: lines as read are cut at the end, empty lines and comments are left out *)
Fixpoint drop_ends (s : text) : text :=
  match s with c :: r => if eqb c "010"%char || eqb c "013"%char then drop_ends r else s | [] => [] end.
Definition rstrip_ends (s : text) : text := rev (drop_ends (rev s)).
Definition shown_input (i : input) : option (input * text) :=
  match i with
  | IDated l d => Some (i, whole l)
  | ILine t => let t := rstrip_ends t in
               match t with
               | [] => None
               | "#"%char :: _ => None
               | _ => Some (ILine t, t)
               end
  end.
(** fail2banregex.py:620-659, process; also what is said of each line *)
Fixpoint process (o : opts) (cfg : fcfg) (w : fworld) (T : tool) (l : list input) : option (tool * list (text * kind)) :=
  match l with
  | [] => Some (T, [])
  | i :: r =>
      match shown_input i with
      | None => process o cfg w T r
      | Some (i, t) =>
          match tool_line o cfg w T i t with
          | None => None
          | Some (T, k) => option_map (fun '(T, l) => (T, (t, k) :: l)) (process o cfg w T r)
          end
      end
  end.
(** fail2banregex.py:661-690 and 755-760: the lines that are printed, if so *)
Definition printed (o : opts) (k : kind) (st : stats) : option (list text) :=
  let '(n, l, all, wanted) := match k with
    | KMatched => (matched st, matched_lines st, o_all_matched o, o_all_matched o)
    | KIgnored => (ignored st, ignored_lines st, o_all_ignored o, negb (o_no_ignored o))
    | KMissed => (missed st, missed_lines st, o_all_missed o, negb (o_no_missed o))
    end in
  if wanted && negb (n =? 0) && ((n <? o_limit o) || all) then Some l else None.
