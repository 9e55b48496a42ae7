(** SafeConfigParserWithIncludes (fail2ban/client/configparserinc.py:63-72, 217-394) and ConfigReaderUnshared.read
    (configreader.py:191-228): which files a configuration is read from, in which order, and what their values become.

    Simplifications: a parsed file is given as the parser of the standard library keeps it (its defaults and its sections with their
    options, raw); values of "before" and "after" are taken without interpolation; the files do not change while they are read, so
    the parsed files kept in the shared configuration (221-228) are those of the world; the key of a kept list of includes is the
    list of names itself, not the names joined by \x01; no option of a
    conditional section ends in the condition of the section; the recursion is bounded by [fuel] instead of the size of the stack. *)
From Verif Require Import Base Text.

Record parsed := mkF { f_defaults : dict text text; f_sections : dict text (dict text text) }.
(** [w_content]: what a file says, None if it cannot be read or decoded; [w_isfile], [w_exists]: os.path.isfile and exists;
    [w_glob]: the sorted result of glob.glob for a directory and an extension *)
Record world := mkW { w_content : text -> option parsed; w_isfile : text -> bool; w_exists : text -> bool; w_glob : text -> text -> list text }.

Definition slash : ascii := "/"%char.
Definition dot : ascii := "."%char.
Fixpoint span (p : ascii -> bool) (s : text) : text * text :=
  match s with
  | [] => ([], [])
  | c :: r => if p c then let (a, b) := span p r in (c :: a, b) else ([], s)
  end.
(** os.path.isabs, os.path.join, os.path.dirname (posixpath), as used in configparserinc.py:269, 276-279 *)
Definition isabs (s : text) : bool := match s with c :: _ => Ascii.eqb c slash | [] => false end.
Definition path_join (a b : text) : text :=
  if isabs b then b
  else match rev a with [] => b | c :: _ => if Ascii.eqb c slash then a ++ b else a ++ slash :: b end.
Definition dirname (s : text) : text :=
  let head := snd (span (fun c => negb (Ascii.eqb c slash)) (rev s)) in
  match snd (span (fun c => Ascii.eqb c slash) head) with
  | [] => rev head
  | h => rev h
  end.
Definition resolve (resource r : text) : text := if isabs r then r else path_join (dirname resource) r.
(** os.path.splitext(filename)[0] + '.local' (configparserinc.py:69) *)
Fixpoint named (r : text) : bool :=
  match r with
  | [] => false
  | c :: q => if Ascii.eqb c slash then false else if Ascii.eqb c dot then named q else true
  end.
Definition splitext_root (s : text) : text :=
  match snd (span (fun c => negb (Ascii.eqb c dot) && negb (Ascii.eqb c slash)) (rev s)) with
  | c :: r => if Ascii.eqb c dot && named r then rev r else s
  | [] => s
  end.
Definition local_name (s : text) : text := splitext_root s ++ tx ".local".

(** configparserinc.py:63-72 _expandConfFilesWithLocal *)
Definition expand (w : world) (l : list text) : list text :=
  flat_map (fun f => f :: (if negb (inb (local_name f) l) && w_isfile w (local_name f) then [local_name f] else [])) l.

(** parser.get(SECTION_NAME, option) if there is one (configparserinc.py:272-275), as lines *)
Definition include_lines (f : parsed) (option : text) : list text :=
  match dget (tx "INCLUDES") (f_sections f) with
  | None => []
  | Some s =>
      match dget option s with
      | Some v => split "010"%char v
      | None => match dget option (f_defaults f) with Some v => split "010"%char v | None => [] end
      end
  end.

(** The lists of includes kept in the shared configuration *)
Definition cache := dict (list text) (list text).
(** for filename in filenames: fileNamesFull += ... *)
Fixpoint collect (g : cache -> text -> option (cache * list text)) (c : cache) (l : list text) : option (cache * list text) :=
  match l with
  | [] => Some (c, [])
  | x :: r =>
      match g c x with
      | None => None
      | Some (c1, a) => match collect g c1 r with None => None | Some (c2, b) => Some (c2, a ++ b) end
      end
  end.
(** configparserinc.py:237-256 _getIncludes, given __getIncludesUncached *)
Definition get_includes_with (g : cache -> text -> option (cache * list text)) (w : world) (share : bool) (c : cache) (filenames : list text)
    : option (cache * list text) :=
  let names := expand w filenames in
  if share then
    match dget names c with
    | Some l => Some (c, l)
    | None => match collect g c names with None => None | Some (c1, l) => Some (dset names l c1, l) end
    end
  else collect g c names.
(** configparserinc.py:258-290 __getIncludesUncached *)
Fixpoint uncached (fuel : nat) (w : world) (share : bool) (seen : list text) (c : cache) (resource : text) : option (cache * list text) :=
  match fuel with
  | O => None
  | S n =>
      match w_content w resource with
      | None => Some (c, [])
      | Some f =>
          let include c line :=
            let r := resolve resource line in
            if inb r seen then Some (c, [])
            else get_includes_with (uncached n w share (seen ++ [resource])) w share c [r] in
          match collect include c (include_lines f (tx "before")) with
          | None => None
          | Some (c1, before) =>
              match collect include c1 (include_lines f (tx "after")) with
              | None => None
              | Some (c2, after) => Some (c2, before ++ [resource] ++ after)
              end
          end
      end
  end.
Definition get_includes (fuel : nat) (w : world) (share : bool) (c : cache) (filenames : list text) : option (cache * list text) :=
  get_includes_with (uncached fuel w share []) w share c filenames.

(** The values: self._defaults and self._sections *)
Record config := mkC { defaults : dict text text; sections : dict text (dict text text) }.
Definition update {V} (d s : dict text V) : dict text V := fold_left (fun d kv => dset (fst kv) (snd kv) d) s d.
Definition is_word (c : ascii) : bool :=
  let n := char_code c in
  ((48 <=? n) && (n <=? 57) || (65 <=? n) && (n <=? 90) || (97 <=? n) && (n <=? 122) || (n =? 95))%Z.
(** CONDITIONAL_RE (configparserinc.py:117) *)
Definition conditional (n : text) : option (text * text) :=
  match span is_word n with
  | (c :: a, q :: x :: b) => if Ascii.eqb q "?"%char then Some (c :: a, q :: x :: b) else None
  | _ => None
  end.
(** configparserinc.py:380-394 merge_section with pref='' *)
Definition merge_section (alls : dict text (dict text text)) (n : text) (o : dict text text) : dict text (dict text text) :=
  dset n (update (match dget n alls with Some s => s | None => [] end) o) alls.
(** 'KNOWN/'+n *)
Definition known (n : text) : text := tx "KNOWN/" ++ n.
(** configparserinc.py:343-368: one section of a file *)
Definition merge_one (alls : dict text (dict text text)) (ns : text * dict text text) : dict text (dict text text) :=
  let (n, s) := match conditional (fst ns) with
    | Some (n, cond) => (n, map (fun kv => (fst kv ++ cond, snd kv)) (ddel (tx "__name__") (snd ns)))
    | None => ns
    end in
  match dget n alls with
  | Some s2 =>
      let alls1 := merge_section alls (known n) (filter (fun kv => dmem (fst kv) s) s2) in
      dset n (update s2 s) alls1
  | None => dset n s alls
  end.
Definition merge_file (c : config) (f : parsed) : config :=
  mkC (update (defaults c) (f_defaults f)) (fold_left merge_one (f_sections f) (sections c)).
(** configparserinc.py:313-370 read: the files read and the values; the list is the return value *)
Fixpoint merge_all (w : world) (c : config) (l : list text) : config * list text :=
  match l with
  | [] => (c, [])
  | f :: r =>
      match w_content w f with
      | Some p => let (c1, q) := merge_all w (merge_file c p) r in (c1, f :: q)
      | None => merge_all w c r
      end
  end.
Definition read_files (fuel : nat) (w : world) (share : bool) (ca : cache) (c : config) (filenames : list text) : option (cache * config * list text) :=
  match get_includes fuel w share ca filenames with
  | None => None
  | Some (ca1, full) => let (c1, q) := merge_all w c full in Some (ca1, c1, q)
  end.
(** configreader.py:191-228 ConfigReaderUnshared.read, after the base directory was joined (198-200) *)
Definition config_files (w : world) (base : text) : list text :=
  filter (w_exists w) ([base ++ tx ".conf"] ++ w_glob w (base ++ tx ".d") (tx ".conf") ++ [base ++ tx ".local"] ++ w_glob w (base ++ tx ".d") (tx ".local")).
Definition read_config (fuel : nat) (w : world) (share : bool) (ca : cache) (c : config) (base : text) : option (cache * config * bool) :=
  match config_files w base with
  | [] => Some (ca, c, false)
  | l =>
      match read_files fuel w share ca c l with
      | None => None
      | Some (ca1, c1, q) => Some (ca1, c1, forallb (fun f => inb f q) l && negb (eqb q []))
      end
  end.
