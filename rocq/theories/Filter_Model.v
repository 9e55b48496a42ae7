(** Model of the processing of a log line: fail2ban/server/filter.py:632-780 (processLine,
    processLineAndAdd, commonError, _ignoreLine), 858-989 (findFailure) and 469-484 (addAttempt),
    in the server (checkFindTime on, checkAllRegex off, ignorePending on, returnRawHost off, no
    onIgnoreRegex).

    Simplifications:
    - times are whole seconds; the date detector is a function from the line to the place of the
      time stamp and the time (None: cannot be parsed); its own memory is modelled elsewhere (C46);
    - regular expressions are functions from the text to what they find, see Lines_Model;
    - the name lookup (with the setting usedns) and tags of the ignore command are functions of
      the surroundings; warnings, the event for the observer (Observer_Model) and the pause after an
      error are left out;
    - the configuration can be different for each line; a date given with a line is not 0; a group
      named failures (a count given by the line) is not modelled;
    - the ID of a ticket is the text of the address. *)
From Verif Require Import Base Text IPAddr_Model Utils_Model Lines_Model Session_Model Ignore_Model Ticket_Model FailManager_Model.

Record fcfg := mkCfg {
  c_raw       : bool;               (* usedns = raw *)
  c_maxlines  : nat;                (* maxlines *)
  c_pref      : option pattern;     (* prefregex *)
  c_fail      : list pattern;       (* failregex *)
  c_ignore    : list pattern;       (* ignoreregex *)
  c_operation : bool                (* inOperation: new messages, not those from before the start *)
}.
Record fworld := mkFW {
  fw        : world;                                      (* clock, own addresses, files, commands *)
  fw_detect : text -> option (nat * nat * option Z);      (* dateDetector.matchTime and getTime *)
  fw_dns    : text -> list ipaddr;                        (* DNSUtils.textToIp *)
  fw_expand : ipaddr -> Z -> fail -> text -> text         (* Actions._getActionInfo and replaceDynamicTags *)
}.
Definition fw_now (w : fworld) : Z := w_now (fw w).

Record flt := mkFlt {
  l_buf    : list line;             (* __lineBuffer *)
  l_sess   : sessions;              (* __mlfidCache *)
  l_text   : text;                  (* __lastTimeText *)
  l_date   : option Z;              (* __lastDate *)
  l_ign    : ign;
  l_fm     : failmgr;               (* failManager *)
  l_svc    : Z;                     (* __nextSvcTime *)
  l_queue  : list ticket;           (* tickets handed to the jail *)
  l_lines  : Z;                     (* procLines *)
  l_errors : Z;                     (* _errors *)
  l_idle   : bool
}.
Definition flt_init : flt :=
  mkFlt [] no_sessions [] None ign_init fm_init (-9223372036854775808) [] 0 0 false.
Definition with_buf b s f := mkFlt b s (l_text f) (l_date f) (l_ign f) (l_fm f) (l_svc f) (l_queue f) (l_lines f) (l_errors f) (l_idle f).
Definition with_date t d f := mkFlt (l_buf f) (l_sess f) t d (l_ign f) (l_fm f) (l_svc f) (l_queue f) (l_lines f) (l_errors f) (l_idle f).
Definition with_ign i f := mkFlt (l_buf f) (l_sess f) (l_text f) (l_date f) i (l_fm f) (l_svc f) (l_queue f) (l_lines f) (l_errors f) (l_idle f).
Definition with_fm m v q f := mkFlt (l_buf f) (l_sess f) (l_text f) (l_date f) (l_ign f) m v q (l_lines f) (l_errors f) (l_idle f).
Definition with_count n e i f := mkFlt (l_buf f) (l_sess f) (l_text f) (l_date f) (l_ign f) (l_fm f) (l_svc f) (l_queue f) n e i.

(** filter.py:762-780 _ignoreLine(buf, orgBuffer, failRegex): whether an ignoreregex matches; after
    a match of a failregex with more than one line only the matched lines are searched *)
Definition ignore_line (cfg : fcfg) (buf : text) (f : option found) : bool :=
  let buf := match f with
             | Some f => if Nat.ltb 1 (c_maxlines cfg) then lines_buf (fd_matched f) else buf
             | None => buf
             end in
  existsb (fun p => match p buf with Some _ => true | None => false end) (c_ignore cfg).

(** What findFailure gives: the failures, or an exception. *)
Inductive outcome := Failures (l : list (ipaddr * fail)) | Raised.

(** filter.py:888-989: the loop over the failregex.  [dated]: the date is not None; [pre]: groups of
    prefregex; [org]: the buffer as it was when the line came. *)
Fixpoint find_loop (cfg : fcfg) (w : fworld) (dated : bool) (org : list line) (pre : groups) (regs : list pattern)
    (buf : text) (lb : list line) (s : sessions) : list line * sessions * outcome :=
  match regs with
  | [] => (lb, s, Failures [])
  | r :: rest =>
      match search r buf org with
      | None => find_loop cfg w dated org pre rest buf lb s
      | Some f =>
          if ignore_line cfg buf (Some f) then (fd_unmatched f, s, Failures [])
          else if negb dated then find_loop cfg w dated org pre rest buf lb s
          else
            let lb := fd_unmatched f in
            let '(s, v) := take_match s (fw_now w) (c_raw cfg) (fw_dns w) (update_all pre (m_groups (fd_match f))) (fd_matched f) in
            match v with
            | VNone => find_loop cfg w dated org pre rest (lines_buf lb) lb s
            | VError => (lb, s, Raised)
            | VQuiet | VWait => (lb, s, Failures [])
            | VFound ids fl => (lb, s, Failures (map (fun i => (i, fl)) ids))
            end
      end
  end.

(** filter.py:858-886: the buffer, ignoreregex and prefregex *)
Definition last_lines (n : nat) (l : list line) : list line := skipn (length l - n) l.
Definition find_failure (cfg : fcfg) (w : fworld) (lb : list line) (s : sessions) (l : line) (dated : bool) : list line * sessions * outcome :=
  let org := if Nat.ltb 1 (c_maxlines cfg) then last_lines (c_maxlines cfg) (lb ++ [l]) else [l] in
  let buf := lines_buf org in
  if negb (Nat.eqb (length (c_ignore cfg)) 0) && (Z.of_nat (length (c_ignore cfg)) <? Z.of_nat (length (c_fail cfg)) - 2)
     && ignore_line cfg buf None
  then (org, s, Failures [])
  else match c_pref cfg with
       | None => find_loop cfg w dated org [] (c_fail cfg) buf org s
       | Some p =>
           match search p buf org with
           | None => (org, s, Failures [])
           | Some f =>
               let g := m_groups (fd_match f) in
               let pre := ddel "content"%string g in
               match gtext g "content" with
               | Some (c :: r) => let lb := [([], [], c :: r)] in find_loop cfg w dated org pre (c_fail cfg) (lines_buf lb) lb s
               | _ => find_loop cfg w dated org pre (c_fail cfg) buf org s
               end
           end
       end.

(** A line as read, or already split, with its date (journal, or found while reading the file). *)
Inductive input := ILine (t : text) | IDated (l : line) (d : Z).

(** filter.py:637-683: the date of a line and the memory of the last one.
    The memory, the split line, the date. *)
Definition truthy_date (d : option Z) : option Z := match d with Some z => if z =? 0 then None else Some z | None => None end.
Definition line_date (w : fworld) (oper : bool) (lt : text) (ld : option Z) (i : input) : text * option Z * line * option Z :=
  let now := fw_now w in
  let recent := match truthy_date ld with Some d => if d >? now - 60 then Some d else None | None => None end in
  let undated (l : line) (t : text) :=
    match recent with
    | Some d => (lt, ld, ([], lt, t), Some d)
    | None => (lt, ld, l, if oper then Some now else None)
    end in
  match i with
  | IDated (a, t, b) d => (t, Some d, (a, t, b), Some d)
  | ILine t =>
      match fw_detect w t with
      | None => undated ([], [], t) t
      | Some (s, e, d) =>
          let m := firstn (e - s) (skipn s t) in
          let l := (firstn s t, m, skipn e t) in
          match m with
          | [] => match recent with
                  | Some d => (lt, ld, ([], lt, t), Some d)
                  | None => (lt, ld, l, Some now)
                  end
          | _ => match d with
                 | Some d => (m, Some d, l, Some d)
                 | None => undated l t
                 end
          end
      end
  end.

(** filter.py:685-709: the date that counts; None: the line is too old *)
Definition sane_date (oper : bool) (findtime now : Z) (d : Z) : option Z :=
  if oper then Some (if Z.abs (d - now) >? 60 then now else d)
  else if d <? now - findtime then None else Some d.

(** filter.py:632-713 processLine(line, date): the failures and their time *)
Definition process_line (cfg : fcfg) (w : fworld) (f : flt) (i : input) : flt * outcome * Z :=
  let now := fw_now w in
  let '(lt, ld, l, date) := line_date w (c_operation cfg) (l_text f) (l_date f) i in
  match date with
  | None =>
      let '(lb, s, o) := find_failure cfg w (l_buf f) (l_sess f) l false in
      (with_buf lb s (with_date lt ld f), o, now)
  | Some d =>
      match sane_date (c_operation cfg) (fm_time (l_fm f)) now d with
      | None => (with_date lt ld f, Failures [], d)
      | Some d' =>
          let ld := if c_operation cfg && (Z.abs (d - now) >? 60) then Some now else ld in
          let '(lb, s, o) := find_failure cfg w (l_buf f) (l_sess f) l true in
          (with_buf lb s (with_date lt ld f), o, d')
      end
  end.

(** filter.py:719-739: the loop over the failures; third: no exception.
    The second part are the failures counted (written to the log as Found). *)
Definition line_text (l : line) : string := let '(a, t, b) := l in key (a ++ t ++ b).
Definition ticket_of (ip : ipaddr) (t : Z) (fl : fail) : ticket := new_ticket (key (ntoa ip)) t (map line_text (f_matches fl)) 0.
Fixpoint count_all (w : fworld) (f : flt) (t : Z) (l : list (ipaddr * fail)) : flt * list (ipaddr * Z) * bool :=
  match l with
  | [] => (f, [], true)
  | (ip, fl) :: r =>
      let now := fw_now w in
      let t' := if t >? now then now else t in
      let '(ig, ans) := in_ignore (l_ign f) (fw w) (mkQ ip (fw_expand w ip t' fl)) in
      let f := with_ign ig f in
      match ans with
      | None => (f, [], false)
      | Some true => count_all w f t r
      | Some false =>
          let '(fm, n) := add_failure (l_fm f) (ticket_of ip t' fl) false 1 false in
          let f := with_fm fm (l_svc f) (l_queue f) f in
          let f := if n >=? fm_retry fm then
                     match perform_ban fm (Some (key (ntoa ip))) now (l_svc f) (l_queue f) with
                     | Some (fm, nx, q) => with_fm fm nx q f
                     | None => f
                     end
                   else f in
          let '(f, evs, ok) := count_all w f t r in (f, (ip, t') :: evs, ok)
      end
  end.

(** filter.py:752-760 commonError() *)
Definition common_error (f : flt) : flt :=
  let e := l_errors f + 1 in
  if e >=? 100 then with_count (l_lines f) (e / 2) true f else with_count (l_lines f) e (l_idle f) f.

(** filter.py:715-750 processLineAndAdd(line, date) *)
Definition line_step (cfg : fcfg) (w : fworld) (f : flt) (i : input) : flt * list (ipaddr * Z) :=
  let '(f, o, t) := process_line cfg w f i in
  match o with
  | Raised => (common_error f, [])
  | Failures l =>
      let '(f, evs, ok) := count_all w f t l in
      if negb ok then (common_error f, evs)
      else
        let f := with_count (l_lines f + 1) (l_errors f) (l_idle f) f in
        let f := if l_lines f mod 100 =? 0
                 then let '(fm, nx) := perform_svc (l_fm f) (fw_now w) (l_svc f) in with_fm fm nx (l_queue f) f
                 else f in
        (with_count (l_lines f) (l_errors f / 2) (l_idle f) f, evs)
  end.

(** filter.py:469-486 addAttempt(ip, *matches); an ID that is a bad network raises: None *)
Definition add_attempt (w : fworld) (f : flt) (id : text) (matches : list string) : flt * option (list (ipaddr * Z)) :=
  match ip_new id CUnspec with
  | None => (f, None)
  | Some ip =>
      let now := fw_now w in
      let count := match matches with [] => 1 | _ => Z.of_nat (length matches) end in
      let '(fm, n) := add_failure (l_fm f) (new_ticket (key (ntoa ip)) now matches 0) false count false in
      let f := with_fm fm (l_svc f) (l_queue f) f in
      let f := if n >=? fm_retry fm then
                 match perform_ban fm (Some (key (ntoa ip))) now (l_svc f) (l_queue f) with
                 | Some (fm, nx, q) => with_fm fm nx q f
                 | None => f
                 end
               else f in
      (f, Some [(ip, now)])
  end.

(** Histories: lines, commands for the ignore list, attempts reported by the client, settings of the
    failure manager (filter.py:283-311). *)
Inductive flt_op :=
| FLine (cfg : fcfg) (w : fworld) (i : input)
| FIgnore (o : ign_op)
| FAttempt (w : fworld) (id : text) (matches : list string)
| FRetry (n : Z) | FFind (n : Z) | FMatches (n : nat).
Definition set_fm (o : fm_op) (f : flt) : flt := with_fm (fst (fm_step (l_fm f) o)) (l_svc f) (l_queue f) f.
Definition flt_step (f : flt) (o : flt_op) : flt * list (ipaddr * Z) :=
  match o with
  | FLine cfg w i => line_step cfg w f i
  | FIgnore o => (with_ign (fst (ign_step (l_ign f) o)) f, [])
  | FAttempt w id m => let '(f, evs) := add_attempt w f id m in (f, match evs with Some e => e | None => [] end)
  | FRetry n => (set_fm (FSetRetry n) f, [])
  | FFind n => (set_fm (FSetTime n) f, [])
  | FMatches n => (set_fm (FSetMatches n) f, [])
  end.
Fixpoint flt_run (f : flt) (ops : list flt_op) : flt * list (list (ipaddr * Z)) :=
  match ops with
  | [] => (f, [])
  | o :: r => let '(f, e) := flt_step f o in let '(f, es) := flt_run f r in (f, e :: es)
  end.
