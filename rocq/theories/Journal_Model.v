(** Model of the journal backend: fail2ban/server/filtersystemd.py (FilterSystemd).

    The journal, as libsystemd shows it: entries in their order, a set of matches that selects some of them, and a
    location from which sd_journal_next and sd_journal_previous go to the next selected entry.  After
    sd_journal_seek_realtime both go to an entry with exactly that time, if there is one (man sd_journal_seek_head).

    Simplifications:
    - times are whole microseconds;
    - the thread is split at every place where it waits, reads or checks whether it shall stop; the environment
      acts between these steps;
    - an error of reading leaves the location unchanged;
    - processing of a line (processLineAndAdd) is C57-C60; here the entries handed over are recorded;
    - of the service after some ticks (performSvc) nothing is kept. *)
From Verif Require Import Base Text.
Local Open Scope Z_scope.

(** ** The journal *)
Record entry := mkE { e_key : Z; e_real : Z; e_src : option Z; e_terms : list text }.
(** what matches are set: the finished groups and the one to which terms are added *)
Record matcher := mkM { m_done : list (list text); m_cur : list text }.
Definition flush_matches : matcher := mkM [] [].
Definition add_term (t : text) (m : matcher) : matcher := mkM (m_done m) (m_cur m ++ [t]).
Definition add_disjunction (m : matcher) : matcher :=
  match m_cur m with [] => m | c => mkM (m_done m ++ [c]) [] end.
(** the name of the field in FIELD=value *)
Fixpoint field_of (t : text) : text :=
  match t with
  | [] => []
  | c :: t => if Ascii.eqb c "="%char then [] else c :: field_of t
  end.
(** a group: terms of one field are alternatives, all fields must be met *)
Definition meets (g : list text) (e : entry) : bool :=
  forallb (fun t => existsb (fun u => eqb (field_of u) (field_of t) && inb u (e_terms e)) g) g.
Definition selects (m : matcher) (e : entry) : bool :=
  match filter (fun g => match g with [] => false | _ => true end) (m_done m ++ [m_cur m]) with
  | [] => true
  | gs => existsb (fun g => meets g e) gs
  end.

Inductive location := LTail | LSeek (t : Z) | LAt (k : Z).
Definition after (l : location) (e : entry) : bool :=
  match l with LTail => false | LSeek t => t <=? e_real e | LAt k => k <? e_key e end.
Definition before (l : location) (e : entry) : bool :=
  match l with LTail => true | LSeek t => e_real e <=? t | LAt k => e_key e <? k end.
Definition get_next (sel : entry -> bool) (j : list entry) (l : location) : option entry * location :=
  match find (fun e => sel e && after l e) j with
  | Some e => (Some e, LAt (e_key e))
  | None => (None, l)
  end.
Definition get_previous (sel : entry -> bool) (j : list entry) (l : location) : option entry * location :=
  match find (fun e => sel e && before l e) (rev j) with
  | Some e => (Some e, LAt (e_key e))
  | None => (None, l)
  end.

(** filtersystemd.py:195-200 getJrnEntTime *)
Definition entry_time (e : entry) : Z := match e_src e with Some t => t | None => e_real e end.

(** ** The filter *)
Inductive wcode := NOP | APPEND | INVALIDATE.
(** startTime: (1, time, cursor) or (0, time) *)
Inductive mark := Mark1 (t : Z) (cursor : Z) | Mark0 (t : Z).
Inductive pc := PCheck | PSeek (last : option entry) | PWait | PRead | PEnd | PDone.
Record st := mkSt {
  s_journal : list entry; s_seq : Z; s_now : Z;      (* entries, key of the next one, time *)
  s_matches : list (list text); s_reader : matcher; s_loc : location;
  s_active : bool; s_idle : bool; s_errors : Z; s_ticks : Z; s_wcode : wcode; s_inop : bool; s_mark : mark; s_batch : Z;
  s_last : option Z; s_pend : option Z; s_upd : Z; s_db : option Z;
  s_pc : pc;
  s_read : list (entry * option bool)     (* entries that were read: handed over in operation mode or not; or not handed over *)
}.
Definition set_env (j : list entry) (seq now : Z) (active idle : bool) (s : st) : st :=
  mkSt j seq now (s_matches s) (s_reader s) (s_loc s) active idle (s_errors s) (s_ticks s) (s_wcode s) (s_inop s) (s_mark s) (s_batch s)
       (s_last s) (s_pend s) (s_upd s) (s_db s) (s_pc s) (s_read s).
Definition set_matches (ms : list (list text)) (r : matcher) (s : st) : st :=
  mkSt (s_journal s) (s_seq s) (s_now s) ms r (s_loc s) (s_active s) (s_idle s) (s_errors s) (s_ticks s) (s_wcode s) (s_inop s) (s_mark s) (s_batch s)
       (s_last s) (s_pend s) (s_upd s) (s_db s) (s_pc s) (s_read s).
Definition set_loc (l : location) (s : st) : st :=
  mkSt (s_journal s) (s_seq s) (s_now s) (s_matches s) (s_reader s) l (s_active s) (s_idle s) (s_errors s) (s_ticks s) (s_wcode s) (s_inop s) (s_mark s) (s_batch s)
       (s_last s) (s_pend s) (s_upd s) (s_db s) (s_pc s) (s_read s).
Definition set_mode (inop : bool) (m : mark) (s : st) : st :=
  mkSt (s_journal s) (s_seq s) (s_now s) (s_matches s) (s_reader s) (s_loc s) (s_active s) (s_idle s) (s_errors s) (s_ticks s) (s_wcode s) inop m (s_batch s)
       (s_last s) (s_pend s) (s_upd s) (s_db s) (s_pc s) (s_read s).
Definition set_pc (p : pc) (w : wcode) (ticks batch : Z) (s : st) : st :=
  mkSt (s_journal s) (s_seq s) (s_now s) (s_matches s) (s_reader s) (s_loc s) (s_active s) (s_idle s) (s_errors s) ticks w (s_inop s) (s_mark s) batch
       (s_last s) (s_pend s) (s_upd s) (s_db s) p (s_read s).
Definition set_errors (n : Z) (idle : bool) (s : st) : st :=
  mkSt (s_journal s) (s_seq s) (s_now s) (s_matches s) (s_reader s) (s_loc s) (s_active s) idle n (s_ticks s) (s_wcode s) (s_inop s) (s_mark s) (s_batch s)
       (s_last s) (s_pend s) (s_upd s) (s_db s) (s_pc s) (s_read s).
Definition set_pos (last pend : option Z) (upd : Z) (db : option Z) (s : st) : st :=
  mkSt (s_journal s) (s_seq s) (s_now s) (s_matches s) (s_reader s) (s_loc s) (s_active s) (s_idle s) (s_errors s) (s_ticks s) (s_wcode s) (s_inop s) (s_mark s) (s_batch s)
       last pend upd db (s_pc s) (s_read s).
Definition passed (e : entry) (s : st) : st :=
  mkSt (s_journal s) (s_seq s) (s_now s) (s_matches s) (s_reader s) (s_loc s) (s_active s) (s_idle s) (s_errors s) (s_ticks s) (s_wcode s) (s_inop s) (s_mark s) (s_batch s)
       (s_last s) (s_pend s) (s_upd s) (s_db s) (s_pc s) (s_read s ++ [(e, None)]).
Definition hand_over (e : entry) (s : st) : st :=
  mkSt (s_journal s) (s_seq s) (s_now s) (s_matches s) (s_reader s) (s_loc s) (s_active s) (s_idle s) (s_errors s) (s_ticks s) (s_wcode s) (s_inop s) (s_mark s) (s_batch s)
       (Some (entry_time e)) (s_pend s) (s_upd s) (s_db s) (s_pc s) (s_read s ++ [(e, Some (s_inop s))]).

(** *** Matches.  [valid]: what the journal accepts as a match *)
Section Matches.
Variable valid : text -> bool.
(** filtersystemd.py:113-116 the loop over one match; false: ValueError *)
Fixpoint add_elements (g : list text) (m : matcher) : bool * matcher :=
  match g with
  | [] => (true, m)
  | t :: g => if valid t then add_elements g (add_term t m) else (false, m)
  end.
(** filtersystemd.py:107-118 _addJournalMatches *)
Fixpoint add_groups (gs : list (list text)) (m : matcher) : bool * matcher :=
  match gs with
  | [] => (true, m)
  | g :: gs =>
      match add_elements g m with
      | (true, m) => add_groups gs (add_disjunction m)
      | (false, m) => (false, m)
      end
  end.
Definition add_matches (gs : list (list text)) (ms : list (list text)) (m : matcher) : bool * (list (list text) * matcher) :=
  let m := match ms with [] => m | _ => add_disjunction m end in
  match add_groups gs m with
  | (true, m) => (true, (ms ++ gs, m))
  | (false, m) => (false, (ms, m))
  end.
(** filtersystemd.py:146-158 resetJournalMatches *)
Definition reset_matches (ms : list (list text)) : bool * (list (list text) * matcher) := add_matches ms [] flush_matches.
(** filtersystemd.py:125-130 the alternatives between plus signs *)
Fixpoint alternatives (match_ : list text) (cur : list text) : list (list text) :=
  match match_ with
  | [] => [cur]
  | t :: r => if eqb t ["+"%char] then cur :: alternatives r [] else alternatives r (cur ++ [t])
  end.
(** filtersystemd.py:124-141 addJournalMatch; false: ValueError *)
Definition add_match (match_ : list text) (ms : list (list text)) (m : matcher) : bool * (list (list text) * matcher) :=
  match add_matches (alternatives match_ []) ms m with
  | (true, r) => (true, r)
  | (false, (ms, _)) => (false, snd (reset_matches ms))
  end.
Fixpoint remove_first (g : list text) (ms : list (list text)) : list (list text) :=
  match ms with
  | [] => []
  | h :: ms => if eqb h g then ms else h :: remove_first g ms
  end.
(** filtersystemd.py:164-178 delJournalMatch; false: ValueError *)
Definition del_match (match_ : option (list text)) (ms : list (list text)) (m : matcher) : bool * (list (list text) * matcher) :=
  match match_ with
  | None => match ms with [] => (true, (ms, m)) | _ => reset_matches [] end
  | Some g => if inb g ms then reset_matches (remove_first g ms) else (false, (ms, m))
  end.
End Matches.

(** *** The thread *)
Definition second : Z := 1000000.
Section Thread.
Variables (valid : text -> bool) (has_db : bool) (findtime : Z).

(** filtersystemd.py:275-283 the last entry *)
Definition check_last (s : st) : st :=
  let sel := selects (s_reader s) in
  let '(e, l) := get_previous sel (s_journal s) LTail in
  let l := match e with Some _ => snd (get_next sel (s_journal s) l) | None => l end in
  set_pc (PSeek e) (s_wcode s) (s_ticks s) (s_batch s) (set_loc l s).
(** filtersystemd.py:284-310 the position to start from *)
Definition seek_start (last : option entry) (s : st) : st :=
  let s :=
    match last with
    | Some e =>
        let pos := if has_db then match s_db s with Some p => p | None => 0 end else 0 in
        set_mode false (Mark1 (s_now s) (e_key e)) (set_loc (LSeek (Z.max pos (s_now s - findtime * second))) s)
    | None => set_mode true (Mark0 (s_now s)) (set_loc (LSeek (s_now s)) s)
    end in
  set_pc PWait NOP (s_ticks s) (s_batch s) (set_loc (snd (get_previous (selects (s_reader s)) (s_journal s) (s_loc s))) s).
(** filtersystemd.py:325-342 back and forth after INVALIDATE *)
Definition back_and_forth (s : st) : st :=
  let sel := selects (s_reader s) in
  match get_previous sel (s_journal s) (s_loc s) with
  | (Some _, l) => set_loc (snd (get_next sel (s_journal s) l)) s
  | (None, l) => set_loc l s
  end.
(** filter.py:752-760 commonError *)
Definition common_error (s : st) : st :=
  let n := s_errors s + 1 in
  if 100 <=? n then set_errors (n / 2) true s else set_errors n (s_idle s) s.
(** filtersystemd.py:362-372 when operation mode begins *)
Definition switch_mode (e : entry) (s : st) : st :=
  let tm := entry_time e in
  if s_inop s then s
  else if s_now s - second <=? tm then set_mode true (s_mark s) s
  else match s_mark s with
       | Mark1 t c => if (e_key e =? c) || (t <? tm) then set_mode false (Mark0 (s_now s * 2 - t)) s else s
       | Mark0 t => if t <? tm then set_mode true (s_mark s) s else s
       end.
(** filtersystemd.py:409-412 and 446-453 onStop *)
Definition finish (s : st) : st :=
  set_pc PDone (s_wcode s) (s_ticks s) (s_batch s)
    (if has_db then match s_pend s with Some p => set_pos (s_last s) None (s_upd s) (Some p) s | None => s end else s).
(** filtersystemd.py:387-400 the position is stored *)
Definition end_batch (s : st) : st :=
  let s :=
    if has_db then
      let pend := match s_last s with Some t => Some t | None => s_pend s end in
      match pend with
      | Some p =>
          if (s_ticks s mod 100 =? 0) || (s_upd s <=? s_now s) || negb (s_active s)
          then set_pos None None (s_now s + 10 * second) (Some p) s
          else set_pos None (Some p) (s_upd s) (s_db s) s
      | None => s
      end
    else s in
  set_pc PWait (s_wcode s) (s_ticks s) 0 s.

(** filtersystemd.py:312-407: one step of the thread; [w]: what waiting gives, [err]: reading fails, [bad]: the entry
    cannot be made a line *)
Definition thread (w : wcode) (err bad : bool) (s : st) : st :=
  match s_pc s with
  | PCheck => check_last s
  | PSeek last => seek_start last s
  | PWait =>
      if negb (s_active s) then finish s
      else
        let waits := match s_wcode s with NOP => s_inop s | _ => false end in
        let wc := if waits then w else s_wcode s in
        let s := match wc with INVALIDATE => if waits && negb (s_ticks s =? 0) then back_and_forth s else s | _ => s end in
        if s_idle s then set_pc PWait wc (s_ticks s + 1) 0 s else set_pc PRead wc (s_ticks s) 0 s
  | PRead =>
      if negb (s_active s) then set_pc PEnd (s_wcode s) (s_ticks s) (s_batch s) s
      else
        match (if err then (None, s_loc s) else get_next (selects (s_reader s)) (s_journal s) (s_loc s)) with
        | (Some e, l) =>
            let s := set_loc l s in
            if bad then common_error (set_pc PWait NOP (s_ticks s + 1) (s_batch s) (passed e s))
            else
              let s := hand_over e (switch_mode e s) in
              let s := set_errors (s_errors s / 2) (s_idle s) s in
              let n := s_batch s + 1 in
              if 100 <=? n then set_pc PEnd APPEND (s_ticks s + 1) n s else set_pc PRead (s_wcode s) (s_ticks s + 1) n s
        | (None, _) => set_pc PEnd NOP (s_ticks s + 1) (s_batch s) (set_mode true (s_mark s) s)
        end
  | PEnd => end_batch s
  | PDone => s
  end.

(** ** What may happen *)
Inductive op :=
| OAppend (src : option Z) (terms : list text)   (* a new entry *)
| ORemove (gone : list Z)        (* entries are removed: journal files are deleted *)
| OClock (t : Z)
| OStop
| OIdle (b : bool)
| OAdd (m : list text) | ODel (m : option (list text))
| ORun (w : wcode) (err bad : bool).
Definition step (s : st) (o : op) : st :=
  match o with
  | OAppend src terms => set_env (s_journal s ++ [mkE (s_seq s) (s_now s) src terms]) (s_seq s + 1) (s_now s) (s_active s) (s_idle s) s
  | ORemove gone => set_env (filter (fun e => negb (inb (e_key e) gone)) (s_journal s)) (s_seq s) (s_now s) (s_active s) (s_idle s) s
  | OClock t => set_env (s_journal s) (s_seq s) (Z.max t (s_now s)) (s_active s) (s_idle s) s
  | OStop => set_env (s_journal s) (s_seq s) (s_now s) false (s_idle s) s
  | OIdle b => set_env (s_journal s) (s_seq s) (s_now s) (s_active s) b s
  | OAdd m => let '(_, (ms, r)) := add_match valid m (s_matches s) (s_reader s) in set_matches ms r s
  | ODel m => let '(_, (ms, r)) := del_match valid m (s_matches s) (s_reader s) in set_matches ms r s
  | ORun w err bad => thread w err bad s
  end.
Definition run (s : st) (os : list op) : st := fold_left step os s.
(** a filter before its start: with this journal, at this time, with these matches set, this position in the database *)
Definition fresh (j : list entry) (seq now : Z) (ms : list (list text)) (r : matcher) (db : option Z) : st :=
  mkSt j seq now ms r LTail true false 0 0 NOP true (Mark0 0) 0 None None 0 db PCheck [].
End Thread.

(** ** formatJournalEntry, filtersystemd.py:208-250: the line made of an entry.
    [f]: the decoded fields of the entry that are used; [pid] is already numeric or a text. *)
Record fields := mkF {
  f_host : text; f_ident : text; f_comm : text; f_syslog_pid : option (Z + text); f_pid : option (Z + text);
  f_mono : text; f_message : text + list text
}.
Section Format.
Variables (int_of : text -> option Z) (dec : Z -> text).   (* int(v, 0); '%i' *)
Definition pid_text (v : Z + text) : text :=
  match v with
  | inl n => tx "[" ++ dec n ++ tx "]"
  | inr t => match int_of t with Some n => tx "[" ++ dec n ++ tx "]" | None => tx "[" ++ t ++ tx "]" end
  end.
Definition falsy (v : option (Z + text)) : bool :=
  match v with None => true | Some (inl n) => n =? 0 | Some (inr t) => eqb t [] end.
Definition nonempty (t : text) : list text := match t with [] => [] | _ => [t] end.
Fixpoint escape_newlines (t : text) : text :=
  match t with
  | [] => []
  | c :: t => if Ascii.eqb c "010"%char then "\"%char :: "n"%char :: escape_newlines t else c :: escape_newlines t
  end.
Definition format_entry (f : fields) : text :=
  let ident := match f_ident f with [] => f_comm f | i => i end in
  let pid := if falsy (f_syslog_pid f) then f_pid f else f_syslog_pid f in
  let who := match ident with
             | [] => []
             | i =>
                 let w := i ++ (if falsy pid then [] else match pid with Some v => pid_text v | None => [] end) ++ tx ":" in
                 w :: (if eqb w (tx "kernel:") then [f_mono f] else [])
             end in
  let msg := match f_message f with inl m => m | inr l => join (tx " ") l end in
  escape_newlines (join (tx " ") (nonempty (f_host f) ++ who ++ [msg])).
End Format.
