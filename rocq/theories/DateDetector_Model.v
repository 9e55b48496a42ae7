(** DateDetector (fail2ban/server/datedetector.py:60-84, 199-550): which of the date templates of a jail finds the date of a line, and
    how the list of templates is kept.

    Simplifications: a template's search is the argument [search] (a template's regular expression does not change once it is built,
    datetemplate.py:166-176); a text is a list of ASCII characters; positions in a line are below 0x7fffffff, so that 0x7fffffff stands
    for "not known" and is written [None]; weights are compared as fractions and not as floating-point numbers; the memory of the pattern
    cache (Utils.Cache, 1000 entries of at most one hour) does not run over and nothing in it expires. *)
From Verif Require Import Base Text.
Local Open Scope nat_scope.

(** datetemplate.py:58-82 DateTemplate: its name, its weight (1, or 100 for the templates made by datedetector.py:115), and whether its
    expression is bound to the begin or the end of a line (flags LINE_BEGIN, LINE_END) *)
Record template := mkT { t_name : string; t_weight : Z; t_begin : bool; t_end : bool }.
Definition anchored (t : template) : bool := t_begin t || t_end t.
(** datedetector.py:199-212 DateDetectorTemplate; [d_dist]: None for 0x7fffffff *)
Record entry := mkD { d_t : template; d_hits : Z; d_last : Z; d_dist : option nat }.
Definition fresh (t : template) : entry := mkD t 0 0 None.
Definition far : Z := 2147483647.
Definition over (d : entry) : Z := Z.max 1 (match d_dist d with Some n => Z.of_nat n | None => far end).
(** datedetector.py:214-216 weight: hits * template.weight / max(1, distance), compared *)
Definition heavier (a b : entry) : bool := (d_hits b * t_weight (d_t b) * over a <? d_hits a * t_weight (d_t a) * over b)%Z.

(** datedetector.py:407-408 __lastPos and __lastEndPos, with 412 __lastTemplIdx: the position of the last date and the characters around it *)
Record seen := mkSeen { n_idx : nat; n_pos : nat; n_before : text; n_at : ascii; n_end : nat; n_last : ascii; n_after : text }.
(** datedetector.py:232-246; [shared]: the hits of the templates themselves (datetemplate.py:75), which all detectors share *)
Record state := mkS { ts : list entry; names : list string; last_seen : option seen; unused : nat; shared : dict string Z }.
Definition init (sh : dict string Z) : state := mkS [] [] None 0 sh.

Definition hits_of (sh : dict string Z) (n : string) : Z := match dget n sh with Some h => h | None => 0%Z end.

Inductive answer := Found (t : template) (from til : nat) | Nothing | IndexErr | DupErr | Done.

(** datedetector.py:249-257 _appendTemplate; [None]: ValueError *)
Definition append_t (s : state) (t : template) (ignoreDup : bool) : option state :=
  if inb (t_name t) (names s) then if ignoreDup then Some s else None
  else Some (mkS (ts s ++ [fresh t]) (names s ++ [t_name t]) (last_seen s) (unused s) (shared s)).
Fixpoint append_all (s : state) (l : list template) (ignoreDup : bool) : state * bool :=
  match l with
  | [] => (s, true)
  | t :: r => match append_t s t ignoreDup with Some s' => append_all s' r ignoreDup | None => (s, false) end
  end.
(** datedetector.py:303-319 addDefaultTemplate, [l]: the templates left by the filter, or their copies with the pre-match *)
Definition add_default (s : state) (l : list template) : state * bool := append_all s l (negb (length (ts s) =? 0)).

Section Detector.
Context (search : template -> text -> option (nat * nat) -> option (nat * nat)).

(** line[a:a+1], line[a-1:a] (empty for a = 0) and line[a-1] (the last character for a = 0) *)
Definition char_at (l : text) (i : nat) : option ascii := nth_error l i.
Definition sub1 (l : text) (i : nat) : text := match nth_error l i with Some c => [c] | None => [] end.
Definition before (l : text) (i : nat) : text := match i with 0 => [] | S j => sub1 l j end.
Definition last_char (l : text) (i : nat) : option ascii := match i with 0 => nth_error l (length l - 1) | S j => nth_error l j end.
(** str.isalnum for one ASCII character *)
Definition isalnum (c : ascii) : bool :=
  let n := char_code c in ((48 <=? n) && (n <=? 57) || (65 <=? n) && (n <=? 90) || (97 <=? n) && (n <=? 122))%Z.

(** datetemplate.py:178-189 matchDate: a match counts for the template *)
Definition match_date (sh : dict string Z) (t : template) (line : text) (part : option (nat * nat)) : option (nat * nat) * dict string Z :=
  match search t line part with
  | Some m => (Some m, dset (t_name t) (hits_of sh (t_name t) + 1)%Z sh)
  | None => (None, sh)
  end.

(** datedetector.py:369-374 the characters at the place of the last date are as before *)
Definition same_bounds (line : text) (n : seen) : bool :=
  (eqb (before line (n_pos n)) (n_before n) || (eqb (sub1 line (n_pos n)) [n_at n] && negb (isalnum (n_at n)))) &&
  (eqb (sub1 line (n_end n)) (n_after n) || (eqb (before line (n_end n)) [n_last n] && negb (isalnum (n_last n)))).

Definition reserve := option (nat * nat * nat).
(** datedetector.py:349-398 the template of the last date first: a winner, or the match held in reserve and the template left out below *)
Definition try_last (s : state) (line : text) : option (nat * nat * nat) * reserve * option nat * dict string Z :=
  match last_seen s with
  | None => (None, None, None, shared s)
  | Some n =>
      match nth_error (ts s) (n_idx n) with
      | None => (None, None, None, shared s)
      | Some d =>
          let t := d_t d in
          let whole := anchored t || negb (same_bounds line n) in
          let (m, sh) := match_date (shared s) t line (if whole then None else Some (n_pos n, n_end n)) in
          let skip := if whole then Some (n_idx n) else None in
          match m with
          | None => (None, None, skip, sh)
          | Some (a, b) =>
              if (length (ts s) =? 1) || anchored t || ((a =? n_pos n) && (b =? n_end n))
              then (Some (a, b, n_idx n), None, skip, sh)
              else (None, Some (a, b, n_idx n), skip, sh)
          end
      end
  end.

(** datedetector.py:233 and 407 __lastPos[0] *)
Definition last_pos (s : state) : nat := match last_seen s with Some n => n_pos n | None => 1 end.

(** datedetector.py:400-438 the search over all templates, [i]: the place of the first of [l] *)
Fixpoint scan (line : text) (skip : option nat) (lp : nat) (res : reserve) (sh : dict string Z) (i : nat) (l : list entry)
  : option (nat * nat * nat) * reserve * dict string Z :=
  match l with
  | [] => (None, res, sh)
  | d :: r =>
      if eqb (Some i) skip then scan line skip lp res sh (S i) r
      else
        let (m, sh) := match_date sh (d_t d) line None in
        match m with
        | None => scan line skip lp res sh (S i) r
        | Some (a, b) =>
            match r with
            | [] => (Some (a, b, i), res, sh)
            | d2 :: _ =>
                if anchored (d_t d) then (Some (a, b, i), res, sh)
                else if (a =? 0) && negb (d_hits d =? 0)%Z && (hits_of sh (t_name (d_t d2)) =? 0)%Z then (Some (a, b, i), res, sh)
                else if (match d_dist d with Some k => k <? a | None => false end) || (lp <? a) then
                  let res := match res with
                             | None => Some (a, b, i)
                             | Some (a', _, _) => if a <? a' then Some (a, b, i) else res
                             end in
                  scan line skip lp res sh (S i) r
                else (Some (a, b, i), res, sh)
            end
        end
  end.

(** list helpers: replace one place, take one out, put one in (del templates[num]; templates[pos:0] = [ddtempl]) *)
Fixpoint set_nth {A} (i : nat) (x : A) (l : list A) : list A :=
  match l, i with [], _ => [] | _ :: r, 0 => x :: r | y :: r, S j => y :: set_nth j x r end.
Definition del_nth {A} (i : nat) (l : list A) : list A := firstn i l ++ skipn (S i) l.
Definition ins_nth {A} (i : nat) (x : A) (l : list A) : list A := firstn i l ++ x :: skipn i l.

(** datedetector.py:543-544 the first unused place, moved on *)
Fixpoint used_prefix (l : list entry) : nat :=
  match l with d :: r => if (d_hits d =? 0)%Z then 0 else S (used_prefix r) | [] => 0 end.
Definition advance (u : nat) (l : list entry) : nat := u + used_prefix (skipn u l).

(** datedetector.py:526-531 _moveable *)
Definition moveable (l : list entry) (d : entry) (pos : nat) : bool :=
  match nth_error l pos with
  | Some p => heavier d p || (d_last p <? d_last d - 300)%Z
  | None => false
  end.
(** datedetector.py:505-550 _reorderTemplate: the list, the first unused place and the new place of the template *)
Definition reorder (l : list entry) (u : nat) (num : nat) : list entry * nat * nat :=
  match num, nth_error l num with
  | S n', Some d =>
      let pos := if u <? num then u else Nat.div2 num in
      let target :=
        if moveable l d pos then Some pos
        else if pos =? n' then None
        else if moveable l d n' then Some n' else None in
      match target with
      | Some p => let l' := ins_nth p d (del_nth num l) in (l', advance u l', p)
      | None => (l, u, num)
      end
  | _, _ => (l, u, num)
  end.

(** datedetector.py:400-459 the winner's hits, distance and use; the place of the date is kept, the template moved *)
Definition settle (s : state) (sh : dict string Z) (line : text) (now : Z) (w : nat * nat * nat) : state * answer :=
  let '(a, b, i) := w in
  match nth_error (ts s) i with
  | None => (mkS (ts s) (names s) (last_seen s) (unused s) sh, Nothing)
  | Some d =>
      let d' := mkD (d_t d) (d_hits d + 1) now (Some a) in
      let l := set_nth i d' (ts s) in
      let u := if unused s =? i then S (unused s) else unused s in
      match char_at line a, last_char line b with
      | Some c, Some c2 =>
          let '(l, u, j) :=
            if negb (i =? 0) && negb (match last_seen s with Some n => i =? n_idx n | None => false end)
            then reorder l u i else (l, u, i) in
          (mkS l (names s) (Some (mkSeen j a (before line a) c b c2 (sub1 line b))) u sh, Found (d_t d) a b)
      | _, _ => (mkS l (names s) (last_seen s) u sh, IndexErr)
      end
  end.

(** datedetector.py:321-459 matchTime; [defaults]: the default templates, added when there are none (337-338) *)
Definition match_time (s : state) (defaults : list template) (line : text) (now : Z) : state * answer :=
  let (s, ok) := if length (ts s) =? 0 then add_default s defaults else (s, true) in
  if ok then
    let '(w, res, skip, sh) := try_last s line in
    match w with
    | Some w => settle s sh line now w
    | None =>
        let '(w, res, sh) := scan line skip (last_pos s) res sh 0 (ts s) in
        match w, res with
        | Some w, _ | None, Some w => settle s sh line now w
        | None, None => (mkS (ts s) (names s) (last_seen s) (unused s) sh, Nothing)
        end
    end
  else (s, DupErr).

(** What a jail does with its detector: a template is added (datedetector.py:292), the defaults are added (303-319), a line is searched
    (321-459); another detector uses a template (datetemplate.py:186-187) *)
Inductive op := Append (t : template) | Default (l : list template) | Line (line : text) (now : Z) | Elsewhere (name : string).
Definition step (defaults : list template) (s : state) (o : op) : state * answer :=
  match o with
  | Append t => match append_t s t false with Some s' => (s', Done) | None => (s, DupErr) end
  | Default l => let (s', ok) := add_default s l in (s', if ok then Done else DupErr)
  | Line line now => match_time s defaults line now
  | Elsewhere n => (mkS (ts s) (names s) (last_seen s) (unused s) (dset n (hits_of (shared s) n + 1)%Z (shared s)), Done)
  end.
Fixpoint run (defaults : list template) (s : state) (ops : list op) : state * list answer :=
  match ops with
  | [] => (s, [])
  | o :: r => let (s1, a) := step defaults s o in let (s2, l) := run defaults s1 r in (s2, a :: l)
  end.
End Detector.

(** The templates of written patterns *)
Section Patterns.
Context (build : string -> string -> option template).  (** [build pattern key]: the template _getPatternTemplate makes; None: an error *)

(** str.upper, for ASCII *)
Definition upper_char (c : ascii) : ascii :=
  let n := char_code c in if ((97 <=? n) && (n <=? 122))%Z then ascii_of_N (Z.to_N (n - 32)%Z) else c.
Fixpoint upper (s : string) : string := match s with EmptyString => EmptyString | String c r => String (upper_char c) (upper r) end.
Fixpoint has_char (c : ascii) (s : string) : bool := match s with EmptyString => false | String d r => eqb c d || has_char c r end.
Fixpoint has_sub (p s : string) : bool := String.prefix p s || match s with EmptyString => false | String _ r => has_sub p r end.
(** datedetector.py:275-277: the key in the cache of patterns *)
Definition pkey (pattern : string) : string := if has_char "%" pattern then pattern else upper pattern.

Inductive asked := Single (t : template) | DefaultsAtBegin | AllDefaults | WithDate | Invalid.
(** datedetector.py:274-292 appendTemplate for a text: the template, or that default templates are to be added, and the cache *)
Definition of_pattern (c : dict string template) (pattern : string) : asked * dict string template :=
  let key := pkey pattern in
  match dget key c with
  | Some t => (Single t, dset key t c)
  | None =>
      if eqb key "{^LN-BEG}"%string then (DefaultsAtBegin, c)
      else if eqb key "{DEFAULT}"%string then (AllDefaults, c)
      else if has_sub "{DATE}" key then (WithDate, c)
      else match build (if eqb key "{NONE}"%string then "{UNB}^"%string else pattern) key with
           | Some t => (Single t, dset key t c)
           | None => (Invalid, c)
           end
  end.
Fixpoint of_patterns (c : dict string template) (l : list string) : list asked * dict string template :=
  match l with
  | [] => ([], c)
  | p :: r => let (a, c1) := of_pattern c p in let (q, c2) := of_patterns c1 r in (a :: q, c2)
  end.
End Patterns.
