(** Model of the command line of the client and the server: fail2ban/client/fail2bancmdline.py:42-73 (defaults), 134-182 (options),
    184-289 (initCmdLine), with getopt.getopt of Python.

    Simplifications:
    - logging set up for the client itself (the verbosity is kept as a number) and texts printed are left out;
    - the configuration is what [early] (readEarly and getEarlyOptions, for a directory) and [readcfg] (readConfig) answer;
      [None] for an exception;
    - --timeout is kept as the number str2seconds gives, [seconds], [None] for an exception. *)
From Verif Require Import Base Text.
Local Open Scope string_scope. Local Open Scope list_scope. Local Open Scope Z_scope.

(** * getopt (Lib/getopt.py of Python) *)
Definition opt := (text * text)%type.
(** fail2bancmdline.py:197-200: the options; [true] if one takes an argument *)
Definition short_opts : list (ascii * bool) :=
  [("h"%char, false); ("c"%char, true); ("s"%char, true); ("p"%char, true); ("x"%char, false); ("f"%char, false); ("b"%char, false);
   ("d"%char, false); ("t"%char, false); ("v"%char, false); ("i"%char, false); ("q"%char, false); ("V"%char, false)].
Definition long_opts : list (text * bool) :=
  map (fun p => (tx (fst p), snd p))
  [("loglevel", true); ("logtarget", true); ("syslogsocket", true); ("test", false); ("async", false); ("conf", true); ("pidfile", true); ("pname", true);
   ("socket", true); ("timeout", true); ("str2sec", true); ("help", false); ("version", false); ("dp", false); ("dump-pretty", false)].
(** str.startswith *)
Fixpoint begins (p s : text) : bool :=
  match p, s with [], _ => true | a :: p, b :: s => eqb a b && begins p s | _ :: _, [] => false end.
(** str.index of the sign =, with what stands before and after it *)
Fixpoint at_eq (s : text) : text * option text :=
  match s with
  | [] => ([], None)
  | c :: r => if eqb c "="%char then ([], Some r) else let '(a, b) := at_eq r in (c :: a, b)
  end.
(** long_has_args: the full name and if it takes an argument.  The list of Python has a sign = at the end of names that do; [p] has
    none, so that it begins such a name if and only if it begins the name without. *)
Definition long_name (p : text) : option (text * bool) :=
  let poss := filter (fun o => begins p (fst o)) long_opts in
  match dget p poss with
  | Some a => Some (p, a)
  | None => match poss with [o] => Some o | _ => None end
  end.
(** do_longs and do_shorts for one word: the options in it, and the one that takes the next word *)
Definition long_word (w : text) : option (list opt * option text) :=
  let '(p, v) := at_eq w in
  match long_name p with
  | None => None
  | Some (n, true) => match v with Some v => Some ([(tx "--" ++ n, v)], None) | None => Some ([], Some (tx "--" ++ n)) end
  | Some (n, false) => match v with Some _ => None | None => Some ([(tx "--" ++ n, [])], None) end
  end.
Fixpoint short_word (w : text) : option (list opt * option text) :=
  match w with
  | [] => Some ([], None)
  | c :: r =>
      match dget c short_opts with
      | None => None
      | Some true => match r with [] => Some ([], Some (tx "-" ++ [c])) | _ => Some ([(tx "-" ++ [c], r)], None) end
      | Some false => match short_word r with Some (o, n) => Some ((tx "-" ++ [c], []) :: o, n) | None => None end
      end
  end.
Definition word (w : text) : option (list opt * option text) := if begins (tx "--") w then long_word (skipn 2 w) else short_word (skipn 1 w).
(** getopt: the options and the other arguments; [None] for GetoptError *)
Fixpoint getopt (args : list text) : option (list opt * list text) :=
  match args with
  | [] => Some ([], [])
  | w :: r =>
      if negb (begins (tx "-") w) || eqb w (tx "-") then Some ([], args)
      else if eqb w (tx "--") then Some ([], r)
      else match word w with
           | None => None
           | Some (os, None) => match getopt r with Some (o, a) => Some (os ++ o, a) | None => None end
           | Some (os, Some n) =>
               match r with
               | [] => None
               | v :: r => match getopt r with Some (o, a) => Some (os ++ (n, v) :: o, a) | None => None end
               end
           end
  end.

(** * Options *)
(** fail2bancmdline.py:58-69, the dictionary _conf: the values that are texts in [strs], the absent ones are None or not there *)
Record conf := mkC { strs : dict text text; timeout : Z; verbose : Z; dump : Z; test : bool; force : bool; interactive : bool; background : bool; is_async : bool }.
Definition conf0 : conf := mkC [(tx "conf", tx "/etc/fail2ban")] 30 1 0 false false false true false.
Definition set_str (k v : text) (c : conf) := mkC (dset k v (strs c)) (timeout c) (verbose c) (dump c) (test c) (force c) (interactive c) (background c) (is_async c).
Definition set_timeout n (c : conf) := mkC (strs c) n (verbose c) (dump c) (test c) (force c) (interactive c) (background c) (is_async c).
Definition set_verbose n (c : conf) := mkC (strs c) (timeout c) n (dump c) (test c) (force c) (interactive c) (background c) (is_async c).
Definition set_dump n (c : conf) := mkC (strs c) (timeout c) (verbose c) n (test c) (force c) (interactive c) (background c) (is_async c).
Definition set_test (c : conf) := mkC (strs c) (timeout c) (verbose c) (dump c) true (force c) (interactive c) (background c) (is_async c).
Definition set_force (c : conf) := mkC (strs c) (timeout c) (verbose c) (dump c) (test c) true (interactive c) (background c) (is_async c).
Definition set_interactive (c : conf) := mkC (strs c) (timeout c) (verbose c) (dump c) (test c) (force c) true (background c) (is_async c).
Definition set_background b (c : conf) := mkC (strs c) (timeout c) (verbose c) (dump c) (test c) (force c) (interactive c) b (is_async c).
Definition set_async (c : conf) := mkC (strs c) (timeout c) (verbose c) (dump c) (test c) (force c) (interactive c) (background c) true.

(** What initCmdLine comes to: the values it returns (True, False; None: go on with the command), or ServerExecutionException. *)
Inductive result := Ends (b : bool) | Raises | GoesOn (c : conf) (args : list text).
Inductive handled := HConf (c : conf) | HDone | HFailed.
(** fail2bancmdline.py:134-182 __getCmdLineOptions; HDone for return True, HFailed for an exception *)
Fixpoint handle (seconds : text -> option Z) (os : list opt) (c : conf) : handled :=
  match os with
  | [] => HConf c
  | (o, v) :: r =>
      let is l := inb o (map tx l) in
      if is ["-c"; "--conf"] then handle seconds r (set_str (tx "conf") v c)
      else if is ["-s"; "--socket"] then handle seconds r (set_str (tx "socket") v c)
      else if is ["-p"; "--pidfile"] then handle seconds r (set_str (tx "pidfile") v c)
      else if is ["-d"; "--dp"; "--dump-pretty"] then handle seconds r (set_dump (if is ["-d"] then 1 else 2) c)
      else if is ["-t"; "--test"] then handle seconds r (set_test c)
      else if is ["-v"] then handle seconds r (set_verbose (verbose c + 1) c)
      else if is ["-q"] then handle seconds r (set_verbose (verbose c - 1) c)
      else if is ["-x"] then handle seconds r (set_force c)
      else if is ["-i"] then handle seconds r (set_interactive c)
      else if is ["-b"] then handle seconds r (set_background true c)
      else if is ["-f"] then handle seconds r (set_background false c)
      else if is ["--async"] then handle seconds r (set_async c)
      else if is ["--timeout"] then match seconds v with Some n => handle seconds r (set_timeout n c) | None => HFailed end
      else if is ["--str2sec"] then match seconds v with Some _ => HDone | None => HFailed end
      else if is ["-h"; "--help"] then HDone
      else if is ["-V"; "--version"] then HDone
      else if begins (tx "--") o then handle seconds r (set_str (skipn 2 o) v c)
      else handle seconds r c
  end.
(** fail2bancmdline.py:43 *)
Definition config_params : list text := map tx ["socket"; "pidfile"; "logtarget"; "loglevel"; "syslogsocket"].
(** fail2bancmdline.py:230-238: what is missing comes from the configuration *)
Fixpoint fill (e : dict text text) (ps : list text) (c : conf) : conf :=
  match ps with
  | [] => c
  | p :: ps => fill e ps (match dget p (strs c) with
                          | Some _ => c
                          | None => match dget p e with Some v => set_str p v c | None => c end
                          end)
  end.
Definition complete (early : text -> option (dict text text)) (c : conf) : option conf :=
  if forallb (fun p => match dget p (strs c) with Some _ => true | None => false end) config_params then Some c
  else match early (match dget (tx "conf") (strs c) with Some d => d | None => [] end) with
       | Some e => Some (fill e config_params c)
       | None => None
       end.
(** fail2bancmdline.py:184-289 initCmdLine, without the name of the program.  [level_ok]: str2LogLevel takes it; [readcfg]: readConfig,
    which does not raise, true if it is good. *)
Definition init (seconds : text -> option Z) (early : text -> option (dict text text)) (level_ok : text -> bool) (readcfg : conf -> bool) (argv : list text) : result :=
  match getopt argv with
  | None => Ends false
  | Some (os, args) =>
      match handle seconds os conf0 with
      | HDone => Ends true
      | HFailed => Ends false
      | HConf c =>
          match complete early c with
          | None => Ends false
          | Some c =>
              match dget (tx "loglevel") (strs c), dget (tx "logtarget") (strs c) with
              | Some l, Some _ =>
                  if negb (level_ok l) then Ends false
                  else if negb (dump c =? 0) && negb (test c) then Ends (readcfg c)
                  else if test c then
                    match args with
                    | [] => Ends (readcfg c)
                    | _ => if readcfg c then GoesOn c args else Raises
                    end
                  else GoesOn c args
              | _, _ => Ends false
              end
          end
      end
  end.
