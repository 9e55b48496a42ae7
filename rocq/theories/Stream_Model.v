(** From the configuration to the commands for the server: fail2ban/client/configreader.py:228-383,
    filterreader.py:38-105, actionreader.py:38-98, jailreader.py:45-301 and jailsreader.py:35-110.

    Simplifications: the configuration parser is an oracle (what `get` gives for a section and an option
    after interpolation); so are the interpolation of tags, glob, shlex and json.  Log messages are left
    out.  Characters are those of ASCII. *)
From Verif Require Import Base Text Backtrack Options_Model.
Local Open Scope string_scope.
Local Open Scope list_scope.
Local Open Scope Z_scope.

(** Python values of options *)
Inductive val := VNone | VBool (b : bool) | VInt (z : Z) | VText (t : text).
Definition opts := dict text val.
Definition truthy (v : val) : bool :=
  match v with VNone => false | VBool b => b | VInt z => negb (z =? 0) | VText t => nonempty t end.
(** d.get(k): None if there is none *)
Definition vget (k : text) (d : opts) : val := match dget k d with Some v => v | None => VNone end.
(** helpers.py:308-313 _merge_dicts *)
Definition merge (x y : opts) : opts := fold_left (fun d kv => dset (fst kv) (snd kv) d) y x.
Definition starts_with (p s : text) : bool := eqb (firstn (length p) s) p.
Definition ends_with (p s : text) : bool := starts_with (rev p) (rev s).
(** a in b for texts *)
Fixpoint substring (a b : text) : bool :=
  starts_with a b || match b with [] => false | _ :: b' => substring a b' end.

(** The commands: ["add", jail, backend], ["set", jail, ...], ["multi-set", jail, option, [...]],
    ["multi-set", jail, "action", action, [[option, value], ...]], ["start", jail], ["config-error", ...] *)
Inductive cmd :=
| CAdd (jail : text) (backend : val)
| CSet (jail : text) (args : list val)
| CMulti (jail opt : text) (values : list text)
| CMultiAct (jail act : text) (values : list (text * val))
| CStart (jail : text)
| CError (msg : text).

(** The kinds of options and configreader.py:33-36 CONVERTER; [None]: ValueError *)
Inductive otype := TString | TBool | TInt.
Definition template := list (otype * text * val).
(** helpers.py:88-90 _as_bool *)
Definition lower (c : ascii) : ascii := if ((65 <=? char_code c) && (char_code c <=? 90))%Z then ascii_of_nat (nat_of_ascii c + 32) else c.
Definition as_bool (v : val) : bool :=
  match v with
  | VText t => inb (map lower t) [tx "1"; tx "on"; tx "true"; tx "yes"]
  | _ => truthy v
  end.

(** What `get` gives: a value, NoSectionError, NoOptionError, ValueError, another exception. *)
Inductive gres := GVal (t : text) | GNoSection | GNoOption | GValueError | GOther.

(** A file of a filter or an action: [Definition] (with the options given beforehand), all options of
    [Definition], whether it has its own logtype, the own options of [Init] (None: no such section). *)
Record dfile := mkFile {
  d_get : opts -> text -> gres;
  d_all : option (list text);
  d_logtype : bool;
  d_init : option (list (text * gres)) }.

Record env := mkEnv {
  e_int : text -> option Z;                        (* int(v); None: ValueError *)
  e_subst : list text -> opts -> option opts;      (* substituteRecursiveTags(opts, ignore); None: exception *)
  e_shlex : text -> option (list text);            (* shlex.split; None: ValueError *)
  e_glob : text -> list text;                      (* glob.glob *)
  e_exists : text -> bool;                         (* os.path.exists *)
  e_json : dict text text -> text;                 (* json.dumps *)
  e_basedir : text;
  e_get1 : text -> text -> gres;                   (* jail section, option *)
  e_get2 : option opts -> text -> text -> gres;    (* the same after merging the filter's options as known/... *)
  e_filter : text -> option dfile;                 (* None: read() is False *)
  e_action : text -> option dfile }.

Section WithEnv.
Context (E : env).

Definition conv (t : otype) (v : val) : option val :=
  match t with
  | TString => Some v
  | TBool => Some (VBool (as_bool v))
  | TInt => match v with
            | VText t => match e_int E t with Some z => Some (VInt z) | None => None end
            | VBool b => Some (VInt (if b then 1 else 0))
            | _ => Some v
            end
  end.

(** configreader.py:240-275 getOptions(sec, options, pOptions, shouldExist, convert); None: an exception *)
Fixpoint get_options (get : text -> gres) (l : template) (pOptions : opts) (shouldExist convert : bool) (values : opts) : option opts :=
  match l with
  | [] => Some values
  | (opttype, optname, optvalue) :: l =>
      let go := get_options get l pOptions shouldExist convert in
      if dmem optname pOptions then go values
      else
        match get optname with
        | GVal v =>
            if convert then
              match conv opttype (VText v) with
              | Some x => go (dset optname x values)
              | None => go (dset optname optvalue values)
              end
            else go (dset optname (VText v) values)
        | GNoSection => if shouldExist then None else go (dset optname optvalue values)
        | GNoOption => match optvalue with VNone => go values | _ => go (dset optname optvalue values) end
        | GValueError => go (dset optname optvalue values)
        | GOther => None
        end
  end.

(** configreader.py:316-342 DefinitionInitConfigReader.getOptions(pOpts, all): the new _opts and
    _initOpts; None: an exception *)
Definition known (n : text) : text := tx "known/" ++ n.
Fixpoint init_options (l : list (text * gres)) (init : opts) : option opts :=
  match l with
  | [] => Some init
  | (opt, g) :: l =>
      if eqb opt (tx "__name__") then init_options l init
      else
        let need := negb (starts_with (tx "known/") opt) || negb (dmem opt init) in
        if need then
          match g with
          | GVal v =>
              let init := if starts_with (tx "known/") opt then init else dset (known opt) (VText v) init in
              let init := if dmem opt init then init else dset opt (VText v) init in
              init_options l init
          | _ => None
          end
        else init_options l init
  end.
Fixpoint all_options (get : text -> gres) (l : list text) (o : opts) : option opts :=
  match l with
  | [] => Some o
  | opt :: l =>
      if eqb opt (tx "__name__") || dmem opt o then all_options get l o
      else match get opt with GVal v => all_options get l (dset opt (VText v) o) | _ => None end
  end.
Definition def_get_options (tpl : template) (f : dfile) (pOpts init : opts) (all : bool) : option (opts * opts) :=
  let pOpts := merge pOpts init in
  match get_options (d_get f pOpts) tpl pOpts false false [] with
  | None => None
  | Some o =>
      match (match d_init f with Some l => init_options l init | None => Some init end) with
      | None => None
      | Some init =>
          match (if all then match d_all f with Some l => all_options (d_get f []) l o | None => Some o end else Some o) with
          | None => None
          | Some o => Some (o, init)
          end
      end
  end.

(** configreader.py:344-357 convertOptions *)
Fixpoint convert_options (tpl : template) (o : opts) : opts :=
  match tpl with
  | [] => o
  | (opttype, optname, optvalue) :: tpl =>
      match opttype, vget optname o with
      | TString, _ | _, VNone => convert_options tpl o
      | _, v => convert_options tpl (dset optname (match conv opttype v with Some x => x | None => optvalue end) o)
      end
  end.
(** configreader.py:375-398 getCombined(ignore); the names of conditional options are ignored, too *)
Definition word_char (c : ascii) : bool := is_oname c && negb (eqb c "-"%char || eqb c "."%char).
Definition conditional (n : text) : option text :=
  match run word_char n with
  | ((_ :: _) as w, q :: _ :: _) => if eqb q "?"%char then Some w else None
  | _ => None
  end.
Definition cond_names (o : opts) : list text := flat_map (fun n => match conditional n with Some w => [w] | None => [] end) (dkeys o).
Definition get_combined (tpl : template) (ignore : list text) (o init : opts) : option opts :=
  let combined := match init with [] => o | _ => merge o init end in
  match combined with
  | [] => Some []
  | _ =>
      match e_subst E (ignore ++ cond_names combined) combined with
      | None | Some [] => None
      | Some o => Some (convert_options tpl o)
      end
  end.

(** filterreader.py:40-48 *)
Definition filter_opts : template :=
  [(TString, tx "usedns", VNone); (TString, tx "prefregex", VNone); (TString, tx "ignoreregex", VNone);
   (TString, tx "failregex", VNone); (TInt, tx "maxlines", VNone); (TString, tx "datepattern", VNone);
   (TString, tx "journalmatch", VNone)].
Definition names (t : template) : list text := map (fun x => snd (fst x)) t.

(** filterreader.py:75-105 _fillStream(stream, opts, jailName); None: an exception *)
Definition insert_at (n : nat) (x : cmd) (l : list cmd) : list cmd := firstn n l ++ x :: skipn n l.
Definition set_cmd (jail opt : text) (v : val) : cmd := CSet jail [VText opt; v].
Fixpoint journal_cmds (jail : text) (l : list text) : option (list cmd) :=
  match l with
  | [] => Some []
  | m :: l =>
      if nonempty m then
        match e_shlex E m, journal_cmds jail l with
        | Some ws, Some r => Some (CSet jail (VText (tx "addjournalmatch") :: map VText ws) :: r)
        | _, _ => None
        end
      else journal_cmds jail l
  end.
Fixpoint fill_stream (jail : text) (o : list (text * val)) (stream : list cmd) (prio : nat) : option (list cmd) :=
  match o with
  | [] => Some stream
  | (opt, value) :: o =>
      match value with
      | VNone => fill_stream jail o stream prio
      | _ =>
          if inb opt [tx "failregex"; tx "ignoreregex"] then
            match value with
            | VText t =>
                let multi := filter nonempty (split newline t) in
                fill_stream jail o (stream ++ match multi with
                                              | [] => []
                                              | [r] => [set_cmd jail (tx "add" ++ opt) (VText r)]
                                              | _ => [CMulti jail (tx "add" ++ opt) multi]
                                              end) prio
            | _ => None
            end
          else if inb opt [tx "usedns"; tx "maxlines"; tx "prefregex"] then
            fill_stream jail o (insert_at (if eqb opt (tx "usedns") then 0%nat else prio) (set_cmd jail opt value) stream) (S prio)
          else if substring opt (tx "datepattern") then fill_stream jail o (stream ++ [set_cmd jail opt value]) prio
          else if eqb opt (tx "journalmatch") then
            match value with
            | VText t => match journal_cmds jail (split newline t) with
                         | Some l => fill_stream jail o (stream ++ l) prio
                         | None => None
                         end
            | _ => None
            end
          else fill_stream jail o stream prio
      end
  end.

(** filterreader.py:68-73 convert *)
Record filt := mkFilt { f_opts : opts; f_init : opts }.
Definition filter_convert (jail : text) (f : filt) : option (list cmd) :=
  match get_combined filter_opts [] (f_opts f) (f_init f) with
  | None => None
  | Some o => fill_stream jail o [] 0
  end.

(** actionreader.py:38-52 *)
Definition action_opts : template :=
  [(TString, tx "actionstart", VNone); (TBool, tx "actionstart_on_demand", VNone); (TString, tx "actionstop", VNone);
   (TString, tx "actionflush", VNone); (TString, tx "actionreload", VNone); (TString, tx "actioncheck", VNone);
   (TString, tx "actionrepair", VNone); (TBool, tx "actionrepair_on_unban", VNone); (TString, tx "actionban", VNone);
   (TString, tx "actionprolong", VNone); (TString, tx "actionreban", VNone); (TString, tx "actionunban", VNone);
   (TBool, tx "norestored", VNone)].
Record areader := mkAReader { a_name : text; a_opts : opts; a_init : opts }.
(** actionreader.py:54-67 __init__: the name of the action and its parameters *)
Definition action_init (file jail : text) (init : dict text text) : text * dict text text :=
  let '(n, init) := match dget (tx "name") init with Some n => (n, init) | None => (jail, dset (tx "name") jail init) end in
  match dget (tx "actname") init with
  | Some a => (a, init)
  | None =>
      let a := if eqb n jail then file
               else file ++ (if starts_with jail n then skipn (length jail) n else tx "-" ++ n) in
      (a, dset (tx "actname") a init)
  end.
(** actionreader.py:82-103 convert; the tags of action.py:316 are not interpolated *)
Definition action_ignore : list text := [tx "matches"; tx "ipmatches"; tx "ipjailmatches"; tx "timeout"; tx "bantime"].
Definition action_multi (o init : opts) : list (text * val) :=
  filter (fun kv => inb (fst kv) (names action_opts) && negb (starts_with (tx "known/") (fst kv))) o
  ++ filter (fun kv => negb (inb (fst kv) (names action_opts)) && negb (starts_with (tx "known/") (fst kv))) init.
Definition action_convert (jail : text) (a : areader) : option (list cmd) :=
  match get_combined action_opts action_ignore (a_opts a) (a_init a) with
  | None => None
  | Some o =>
      Some (CSet jail [VText (tx "addaction"); VText (a_name a)]
            :: match action_multi o (a_init a) with
               | [] => []
               | [(k, v)] => [CSet jail [VText (tx "action"); VText (a_name a); VText k; v]]
               | l => [CMultiAct jail (a_name a) l]
               end)
  end.

(** jailreader.py:92-127 *)
Definition opts_1st : template :=
  [(TBool, tx "enabled", VBool false); (TString, tx "backend", VText (tx "auto")); (TString, tx "filter", VText [])].
Definition config_opts : template :=
  [(TBool, tx "enabled", VBool false); (TString, tx "backend", VText (tx "auto")); (TInt, tx "maxretry", VNone);
   (TInt, tx "maxmatches", VNone); (TString, tx "findtime", VNone); (TString, tx "bantime", VNone);
   (TBool, tx "bantime.increment", VNone); (TString, tx "bantime.factor", VNone); (TString, tx "bantime.formula", VNone);
   (TString, tx "bantime.multipliers", VNone); (TString, tx "bantime.maxtime", VNone); (TString, tx "bantime.rndtime", VNone);
   (TBool, tx "bantime.overalljails", VNone); (TString, tx "ignorecommand", VNone); (TBool, tx "ignoreself", VNone);
   (TString, tx "ignoreip", VNone); (TString, tx "ignorecache", VNone); (TString, tx "filter", VText []);
   (TString, tx "logtimezone", VNone); (TString, tx "logencoding", VNone); (TString, tx "logpath", VNone);
   (TBool, tx "skip_if_nologs", VBool false); (TString, tx "action", VText [])] ++ filter_opts.
Definition ignore_opts : list text :=
  [tx "action"; tx "filter"; tx "enabled"; tx "backend"; tx "skip_if_nologs"] ++ names filter_opts.

Inductive act := APython (name path json : text) | ACommand (a : areader).
Record jail := mkJail { j_name : text; j_opts : opts; j_filter : option filt; j_actions : list act }.

(** jailreader.py:74-76 isEnabled *)
Definition is_enabled (force : bool) (o : opts) : bool := force || truthy (vget (tx "enabled") o).
(** filterreader.py:57-63 applyAutoOptions *)
Definition apply_auto (f : dfile) (backend : val) (init : opts) : opts :=
  if negb (truthy (vget (tx "logtype") init)) && negb (d_logtype f)
  then dset (tx "logtype") (VText (match backend with VText b => if starts_with (tx "systemd") b then tx "journal" else tx "file" | _ => tx "file" end)) init
  else init.
Definition as_opts (d : dict text text) : opts := map (fun kv => (fst kv, VText (snd kv))) d.

(** jailreader.py:129-231 getOptions.  [JBad]: a JailDefError, the jail is kept with the error;
    [JRaise]: another exception. *)
Inductive jres := JOk (j : jail) | JBad (j : jail) | JRaise.
Definition bad (name : text) (o : opts) (e : text) : jres :=
  JBad (mkJail name (dset (tx "config-error") (VText e) o) None []).
(** jailreader.py:197-205: os.path.splitext of a name that ends with .py *)
Definition base_name (n : text) : text := firstn (length n - 3) n.
Inductive ares := AOk (l : list act) | ABad (e : text) | ARaise.
Definition one_action (name : text) (jopts : opts) (s : text) : ares :=
  match extract_options s with
  | None => ABad (tx "Invalid action definition")
  | Some (actName, actOpt) =>
      if ends_with (tx ".py") actName then
        let n := match dget (tx "actname") actOpt with Some n => n | None => base_name actName end in
        AOk [APython n (e_basedir E ++ tx "/action.d/" ++ actName) (e_json E (ddel (tx "actname") actOpt))]
      else
        let '(n, init) := action_init actName name actOpt in
        match e_action E actName with
        | None => ABad (tx "Unable to read action")
        | Some f =>
            match def_get_options action_opts f jopts (as_opts init) false with
            | None => ARaise
            | Some (o, i) => AOk [ACommand (mkAReader n o i)]
            end
        end
  end.
Fixpoint all_actions (name : text) (jopts : opts) (l : list text) : ares :=
  match l with
  | [] => AOk []
  | s :: l =>
      let s := strip s in
      if nonempty s then
        match one_action name jopts s with
        | AOk a => match all_actions name jopts l with AOk r => AOk (a ++ r) | x => x end
        | x => x
        end
      else all_actions name jopts l
  end.
Definition text_of (v : val) : text := match v with VText t => t | _ => [] end.
Definition with_actions (name : text) (o : opts) (f : option filt) : jres :=
  match all_actions name o (split_with_options (text_of (vget (tx "action") o))) with
  | AOk l => JOk (mkJail name o f l)
  | ABad e => bad name o e
  | ARaise => JRaise
  end.
Definition jail_get_options (force : bool) (name : text) : jres :=
  match get_options (e_get1 E name) opts_1st [] true true [] with
  | None => JRaise
  | Some o =>
      if negb (is_enabled force o) then JOk (mkJail name o None [])
      else
        match vget (tx "filter") o with
        | VText ((_ :: _) as flt) =>
            match extract_options flt with
            | None => bad name o (tx "Invalid filter definition")
            | Some (fname, fopt) =>
                match e_filter E fname with
                | None => bad name o (tx "Unable to read the filter")
                | Some f =>
                    let init := apply_auto f (vget (tx "backend") o) (as_opts fopt) in
                    match def_get_options filter_opts f o init true with
                    | None => JRaise
                    | Some (fo, init) =>
                        match get_combined filter_opts [] fo init with
                        | None => JRaise
                        | Some kn =>
                            match get_options (e_get2 E (Some kn) name) config_opts [] false true [] with
                            | None => JRaise
                            | Some o =>
                                match def_get_options filter_opts f o init false with
                                | None => JRaise
                                | Some (fo, init) => with_actions name o (Some (mkFilt fo init))
                                end
                            end
                        end
                    end
                end
            end
        | _ =>
            match get_options (e_get2 E None name) config_opts [] false true [] with
            | None => JRaise
            | Some o => with_actions name o None
            end
        end
  end.

(** jailreader.py:78-90 _glob *)
Definition glob_ (path : text) : list text := filter (e_exists E) (e_glob E path).
(** path.rsplit(" ", 1): at the last blank *)
Fixpoint rsplit (s : text) : option (text * text) :=
  match s with
  | [] => None
  | c :: r => match rsplit r with
              | Some (a, b) => Some (c :: a, b)
              | None => if eqb c " "%char then Some ([], r) else None
              end
  end.
Definition path_cmds (name line : text) : list cmd :=
  let '(path, tail) := match rsplit line with Some x => x | None => (line, tx "head") end in
  map (fun p => CSet name [VText (tx "addlogpath"); VText p; VText tail]) (glob_ path).

(** jailreader.py:242-301 convert(allow_no_files).  [CRaise]: an exception; otherwise the commands and
    whether the jail has a config-error now *)
Inductive cres := CRaise | COk (stream : list cmd) (error : bool).
(** jailreader.py:264-292 the loop; [stream2] are the log paths *)
Inductive lres := LOk (stream stream2 : list cmd) | LSkip | LRaise.
Fixpoint jail_loop (name : text) (J : opts) (allow : bool) (o : list (text * val)) (stream stream2 : list cmd) : lres :=
  match o with
  | [] => LOk stream stream2
  | (opt, value) :: o =>
      if eqb opt (tx "logpath") then
        if starts_with (tx "systemd") (text_of (match dget (tx "backend") J with Some b => b | None => VText (tx "auto") end))
        then jail_loop name J allow o stream stream2
        else
          match value with
          | VText t =>
              let found := flat_map (path_cmds name) (split newline t) in
              match found with
              | [] =>
                  let skip := truthy (vget (tx "skip_if_nologs") J) in
                  if negb allow && negb skip then LRaise
                  else if skip then LSkip
                  else jail_loop name J allow o stream stream2
              | _ => jail_loop name J allow o stream (stream2 ++ found)
              end
          | _ => LRaise
          end
      else if eqb opt (tx "ignoreip") then
        jail_loop name J allow o (stream ++ [CSet name (VText (tx "addignoreip") :: map VText (splitwords (text_of value) false))]) stream2
      else if inb opt ignore_opts then jail_loop name J allow o stream stream2
      else jail_loop name J allow o (stream ++ [set_cmd name opt value]) stream2
  end.
Fixpoint actions_convert (name : text) (l : list act) : option (list cmd) :=
  match l with
  | [] => Some []
  | a :: l =>
      match (match a with
             | ACommand a => action_convert name a
             | APython n p js => Some [CSet name [VText (tx "addaction"); VText n; VText p; VText js]]
             end), actions_convert name l with
      | Some x, Some r => Some (x ++ r)
      | _, _ => None
      end
  end.
Definition jail_convert (allow : bool) (j : jail) : cres :=
  let name := j_name j in
  let o := j_opts j in
  match vget (tx "config-error") o with
  | VText ((_ :: _) as e) => COk [CError (tx "Jail '" ++ name ++ tx "' skipped, because of wrong configuration: " ++ e)] true
  | _ =>
      match (match j_filter j with Some f => filter_convert name f | None => Some [] end) with
      | None => CRaise
      | Some stream =>
          match fill_stream name o stream 0 with
          | None => CRaise
          | Some stream =>
              match jail_loop name o allow o stream [] with
              | LRaise => CRaise
              | LSkip => COk [CError (tx "Jail '" ++ name ++ tx "' skipped, because of missing log files.")] true
              | LOk stream stream2 =>
                  match actions_convert name (j_actions j) with
                  | None => CRaise
                  | Some acts =>
                      COk (CAdd name (match dget (tx "backend") o with Some b => b | None => VText (tx "auto") end)
                           :: stream ++ stream2 ++ acts) false
                  end
              end
          end
      end
  end.

(** jailsreader.py:57-89 getOptions(section, ignoreWrong): the jails and the result; None: an exception *)
Fixpoint read_jails (force : bool) (sections : list text) (st : bool * bool) : option (list jail * (bool * bool)) :=
  match sections with
  | [] => Some ([], st)
  | sec :: sections =>
      if eqb sec (tx "INCLUDES") then read_jails force sections st
      else
        match jail_get_options force sec with
        | JRaise => None
        | JOk j =>
            if is_enabled force (j_opts j)
            then match read_jails force sections (true, snd st) with Some (l, st) => Some (j :: l, st) | None => None end
            else read_jails force sections st
        | JBad j => match read_jails force sections (fst st, true) with Some (l, st) => Some (j :: l, st) | None => None end
        end
  end.
Definition jails_get_options (force ignoreWrong : bool) (sections : list text) : option (list jail * bool) :=
  match read_jails force sections (false, false) with
  | None => None
  | Some (l, (good, wrong)) => Some (l, ignoreWrong && good || negb wrong)
  end.
(** jailsreader.py:91-110 convert(allow_no_files) *)
Fixpoint convert_jails (allow : bool) (l : list jail) : option (list cmd * list cmd) :=
  match l with
  | [] => Some ([], [])
  | j :: l =>
      match jail_convert allow j with
      | CRaise => None
      | COk s err =>
          match convert_jails allow l with
          | None => None
          | Some (s', starts) => Some (s ++ s', if err then starts else CStart (j_name j) :: starts)
          end
      end
  end.
Definition jails_convert (allow : bool) (l : list jail) : option (list cmd) :=
  match convert_jails allow l with Some (s, starts) => Some (s ++ starts) | None => None end.
End WithEnv.
