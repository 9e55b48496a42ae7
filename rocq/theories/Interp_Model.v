(** The values of options with references: BasicInterpolationWithName and SafeConfigParserWithIncludes.get_ex and
    _map_section_options (fail2ban/client/configparserinc.py:38-60, 113-117, 128-212), together with what they inherit from the
    standard library's configparser (Python 3.11: RawConfigParser.get, _unify_values and BasicInterpolation._interpolate_some,
    which are not in /repo; _unify_values: [unify]).

    Simplifications: characters are those of ASCII ([\w] and str.lower know no others); the variables given to [get] are texts
    (a variable that is None makes the interpolation fail with a TypeError); the shortcut of lines 163-164, which returns where there
    is nothing to find, is left out. *)
From Verif Require Import Base Text Config_Model.

Definition percent : ascii := "%"%char.
Definition lpar : ascii := "("%char.
Definition rpar : ascii := ")"%char.
(** str.lower; optionxform of the parser *)
Definition lower_char (c : ascii) : ascii :=
  if ((65 <=? char_code c) && (char_code c <=? 90))%Z then ascii_of_N (N_of_ascii c + 32) else c.
Definition lower (s : text) : text := map lower_char s.

(** NoSectionError, NoOptionError, InterpolationDepthError, InterpolationSyntaxError, InterpolationMissingOptionError *)
Inductive err := NoSection | NoOption | TooDeep | Malformed | Missing (name : text).
Inductive res := Val (t : text) | Err (e : err).

(** The chain map of configparser: variables, options of the section, defaults; a new key goes to the first *)
Record cmap := mkM { m_own : dict text text; m_sec : dict text text; m_def : dict text text }.
Definition mget (m : cmap) (k : text) : option text :=
  match dget k (m_own m) with
  | Some v => Some v
  | None => match dget k (m_sec m) with Some v => Some v | None => dget k (m_def m) end
  end.
Definition mset (m : cmap) (k v : text) : cmap := mkM (dset k v (m_own m)) (m_sec m) (m_def m).
(** configparser _unify_values *)
Definition unify (c : config) (section : text) (vars : dict text text) : option cmap :=
  let own := fold_left (fun d kv => dset (lower (fst kv)) (snd kv) d) vars [] in
  match dget section (sections c) with
  | Some s => Some (mkM own s (defaults c))
  | None => if eqb section (tx "DEFAULT") then Some (mkM own [] (defaults c)) else None
  end.

(** [\w\-] *)
Definition is_secname (c : ascii) : bool := is_word c || eqb c "-"%char.
(** One match of SECTION_OPTSUBST_CRE (configparserinc.py:115) at the start of a text: the section, the option and what follows *)
Definition optsubst (s : text) : option (text * text * text) :=
  match s with
  | p :: l :: r =>
      if eqb p percent && eqb l lpar then
        match span is_secname r with
        | (x :: sec, sl :: r2) =>
            if eqb sl slash then
              match span (fun c => negb (eqb c rpar)) r2 with
              | (y :: opt, _ :: e :: r3) => if eqb e "s"%char then Some (x :: sec, y :: opt, r3) else None
              | _ => None
              end
            else None
        | _ => None
        end
      else None
  | _ => None
  end.
(** SECTION_OPTSUBST_CRE.findall (configparserinc.py:166); the fuel is the length of the text *)
Fixpoint findall (n : nat) (s : text) : list (text * text) :=
  match n, s with
  | S n, _ :: t => match optsubst s with Some (sec, opt, r) => (sec, opt) :: findall n r | None => findall n t end
  | _, _ => []
  end.
(** configparserinc.py:171-199: the value that a reference to an option of another section stands for *)
Definition foreign (c : config) (section sec opt : text) : option text :=
  let usedef := dget opt (defaults c) in
  let seclwr := lower sec in
  if negb (eqb seclwr (tx "default")) then
    if eqb seclwr (tx "known") then
      match dget (tx "KNOWN/" ++ section) (sections c) with
      | Some s => match dget opt s with Some v => Some v | None => usedef end
      | None => usedef
      end
    else
      match dget sec (sections c) with
      | None => None
      | Some s => match dget opt s with Some v => Some v | None => usedef end
      end
  else usedef.
(** configparserinc.py:157-212 _map_section_options *)
Definition map_one (c : config) (section : text) (m : cmap) (so : text * text) : cmap :=
  let sopt := fst so ++ slash :: snd so in
  match mget m sopt with
  | Some _ => m
  | None => match foreign c section (fst so) (snd so) with Some v => mset m sopt v | None => m end
  end.
Definition map_section_options (c : config) (section rest : text) (m : cmap) : cmap :=
  fold_left (map_one c section) (findall (length rest) rest) m.

(** The loop of configparser's _interpolate_some; [go] is the call for the next level; the fuel is at least the length of the text *)
Fixpoint loop (n : nat) (go : text -> res) (m : cmap) (accum rest : text) : res :=
  match n with
  | O => Val accum
  | S n =>
      match span (fun c => negb (eqb c percent)) rest with
      | (a, []) => Val (accum ++ a)
      | (a, _ :: r) =>
          match r with
          | [] => Err Malformed
          | x :: r' =>
              if eqb x percent then loop n go m (accum ++ a ++ [percent]) r'
              else if eqb x lpar then
                match span (fun c => negb (eqb c rpar)) r' with
                | (y :: v, _ :: e :: r3) =>
                    if eqb e "s"%char then
                      let var := lower (y :: v) in
                      match mget m var with
                      | None => Err (Missing var)
                      | Some w =>
                          if inb percent w then
                            match go w with Val t => loop n go m (accum ++ a ++ t) r3 | Err e => Err e end
                          else loop n go m (accum ++ a ++ w) r3
                      end
                    else Err Malformed
                | _ => Err Malformed
                end
              else Err Malformed
          end
      end
  end.
(** __name__ in line 54 is the name of the module *)
Definition module_name : text := tx "fail2ban.client.configparserinc".
(** configparserinc.py:52-60 _interpolate_some, with that of configparser; [depth]: the levels left, of MAX_INTERPOLATION_DEPTH = 10 *)
Fixpoint interpolate (depth : nat) (c : config) (section : text) (rest : text) (m : cmap) : res :=
  match section, mget m module_name with
  | [], _ | _, Some _ => Val []
  | _, None =>
      let m1 := map_section_options c section rest (mset m (tx "__name__") section) in
      match depth with
      | O => Err TooDeep
      | S d => loop (S (length rest)) (fun v => interpolate d c section v m1) m1 [] rest
      end
  end.
(** configparser get (ConfigReader.get, configreader.py:170-174) *)
Definition get (c : config) (section option : text) (raw : bool) (vars : dict text text) : res :=
  match unify c section vars with
  | None => Err NoSection
  | Some m =>
      match mget m (lower option) with
      | None => Err NoOption
      | Some v => if raw then Val v else interpolate 10 c section v m
      end
  end.

(** [\s] *)
Definition is_space (c : ascii) : bool :=
  let n := char_code c in ((9 <=? n) && (n <=? 13) || (28 <=? n) && (n <=? 32))%Z.
(** SECTION_OPTNAME_CRE (configparserinc.py:113); a final newline is not part of the name *)
Definition optname (o : text) : option (text * text) :=
  match span is_secname o with
  | (x :: sec, sl :: r) =>
      if eqb sl slash then
        match span (fun c => negb (is_space c) && negb (eqb c ">"%char)) r with
        | (y :: opt, []) => Some (x :: sec, y :: opt)
        | (y :: opt, [e]) => if eqb e "010"%char then Some (x :: sec, y :: opt) else None
        | _ => None
        end
      else None
  | _ => None
  end.
(** configparserinc.py:147-152: the first of the sections that has the option *)
Fixpoint first_of (c : config) (opt : text) (raw : bool) (secs : list text) (fallback : res) : res :=
  match secs with
  | [] => fallback
  | sec :: r =>
      match get c sec opt raw [] with
      | Err NoSection | Err NoOption => first_of c opt raw r fallback
      | v => v
      end
  end.
(** configparserinc.py:128-155 get_ex *)
Definition get_ex (c : config) (section option : text) (raw : bool) (vars : dict text text) : res :=
  let fallback := get c section option raw vars in
  match (if inb slash option then optname option else None) with
  | Some (sec, opt) =>
      let seclwr := lower sec in
      let secs := if eqb seclwr (tx "known") then [tx "KNOWN/" ++ section; section]
                  else if negb (eqb seclwr (tx "default")) then [sec] else [tx "DEFAULT"] in
      first_of c opt raw secs fallback
  | None => fallback
  end.
