(** Specification vocabulary for the commands a configuration gives. *)
From Verif Require Import Base Text Options_Spec Stream_Model.
Local Open Scope string_scope.
Local Open Scope list_scope.

(** The jail a command is about. *)
Definition about (c : cmd) : option text :=
  match c with
  | CAdd j _ | CSet j _ | CMulti j _ _ | CMultiAct j _ _ | CStart j => Some j
  | CError _ => None
  end.

(** What a jail of the server has been told after commands have been carried out in order. *)
Definition flat {A} (f : cmd -> list A) (s : list cmd) : list A := concat (map f s).
(** the values added to a list like addfailregex *)
Definition told_added (k : text) : list cmd -> list text :=
  flat (fun c => match c with
                 | CSet _ [VText o; VText r] => if eqb o k then [r] else []
                 | CMulti _ o l => if eqb o k then l else []
                 | _ => []
                 end).
(** a setting: the value set last *)
Definition told_values (k : text) : list cmd -> list val :=
  flat (fun c => match c with
                 | CSet _ [VText o; v] => if eqb o k then [v] else []
                 | _ => []
                 end).
Definition last_of {A} (l : list A) : option A := match rev l with [] => None | x :: _ => Some x end.
Definition told (k : text) (s : list cmd) : option val := last_of (told_values k s).
(** the log files, from where to read them *)
Definition told_logs : list cmd -> list (text * text) :=
  flat (fun c => match c with
                 | CSet _ [VText o; VText p; VText t] => if eqb o (tx "addlogpath") then [(p, t)] else []
                 | _ => []
                 end).
(** the arguments of commands with any number of words *)
Definition told_words (k : text) : list cmd -> list (list val) :=
  flat (fun c => match c with
                 | CSet _ (VText o :: l) => if eqb o k then [l] else []
                 | _ => []
                 end).
(** the actions, and the options of one of them *)
Definition told_actions (s : list cmd) : list (list val) := told_words (tx "addaction") s.
Definition told_action_options (n : text) : list cmd -> list (text * val) :=
  flat (fun c => match c with
                 | CSet _ [VText o; VText a; VText k; v] => if eqb o (tx "action") && eqb a n then [(k, v)] else []
                 | CMultiAct _ a l => if eqb a n then l else []
                 | _ => []
                 end).

(** The lines of a value that are not empty. *)
Definition some_text (l : text) : bool := match l with [] => false | _ => true end.
Definition lines_of (v : option val) : list text :=
  match v with Some (VText t) => filter some_text (split nl t) | _ => [] end.
(** A value that is set. *)
Definition set_value (v : option val) : option val := match v with Some VNone => None | _ => v end.
Definition orelse {A} (a b : option A) : option A := match a with Some _ => a | None => b end.

(** The file names a line of logpath stands for, and the word behind its last blank. *)
Inductive last_blank : text -> text -> text -> Prop :=
| last_blank_intro a b : ~ In " "%char b -> last_blank (a ++ " "%char :: b) a b.
Inductive path_line : text -> text -> text -> Prop :=
| PL_plain l : ~ In " "%char l -> path_line l l (tx "head")
| PL_tail l a b : last_blank l a b -> path_line l a b.
Inductive log_files (E : env) : list text -> list (text * text) -> Prop :=
| LF_nil : log_files E [] []
| LF_cons l p t ls r : path_line l p t -> log_files E ls r ->
    log_files E (l :: ls) (map (fun f => (f, t)) (filter (e_exists E) (e_glob E p)) ++ r).

(** The options that belong to the filter; the options of a jail that are sent as they are. *)
Definition first_options : list text := [tx "usedns"; tx "maxlines"; tx "prefregex"].
Definition plain_options : list text :=
  [tx "maxretry"; tx "maxmatches"; tx "findtime"; tx "bantime"; tx "bantime.increment"; tx "bantime.factor";
   tx "bantime.formula"; tx "bantime.multipliers"; tx "bantime.maxtime"; tx "bantime.rndtime";
   tx "bantime.overalljails"; tx "ignorecommand"; tx "ignoreself"; tx "ignorecache"; tx "logtimezone"; tx "logencoding"].

(** The word that says what a command sets. *)
Definition key_of (c : cmd) : option text :=
  match c with
  | CSet _ (VText o :: _) => Some o
  | CMulti _ o _ => Some o
  | CMultiAct _ _ _ => Some (tx "action")
  | _ => None
  end.

(** The options of a jail, as man/jail.conf.5 lists them, with the options of its filter: their kinds and
    their defaults. *)
Definition texts (l : list text) (d : val) : template := map (fun n => (TString, n, d)) l.
Definition jail_options : template :=
  [(TBool, tx "enabled", VBool false); (TBool, tx "skip_if_nologs", VBool false);
   (TBool, tx "bantime.increment", VNone); (TBool, tx "bantime.overalljails", VNone); (TBool, tx "ignoreself", VNone);
   (TInt, tx "maxretry", VNone); (TInt, tx "maxmatches", VNone); (TInt, tx "maxlines", VNone);
   (TString, tx "backend", VText (tx "auto")); (TString, tx "filter", VText []); (TString, tx "action", VText [])]
  ++ texts [tx "findtime"; tx "bantime"; tx "bantime.factor"; tx "bantime.formula"; tx "bantime.multipliers"; tx "bantime.maxtime";
            tx "bantime.rndtime"; tx "ignorecommand"; tx "ignoreip"; tx "ignorecache"; tx "logtimezone"; tx "logencoding"; tx "logpath";
            tx "usedns"; tx "prefregex"; tx "failregex"; tx "ignoreregex"; tx "datepattern"; tx "journalmatch"] VNone.

(** A jail as it has been read: every option once, and only options of a jail.  The values of its filter
    are [F]. *)
Definition proper (j : jail) : Prop := dwf (j_opts j) /\ incl (dkeys (j_opts j)) (names config_opts).
Definition filter_values (E : env) (j : jail) (F : opts) : Prop :=
  dwf F /\ match j_filter j with
           | None => F = []
           | Some f => get_combined E filter_opts [] (f_opts f) (f_init f) = Some F
           end.
Definition backend_is (b : val) (J : opts) : Prop := b = match dget (tx "backend") J with Some b => b | None => VText (tx "auto") end.
Definition uses_journal (J : opts) : bool :=
  match dget (tx "backend") J with Some (VText b) => eqb (firstn 7 b) (tx "systemd") | _ => false end.
(** All words that may follow "set" and a jail's name. *)
Definition commands : list text :=
  first_options ++ [tx "datepattern"] ++ plain_options
  ++ [tx "addfailregex"; tx "addignoreregex"; tx "addjournalmatch"; tx "addignoreip"; tx "addlogpath"; tx "addaction"; tx "action"].
(** How an action is added. *)
Definition action_args (a : act) : list val :=
  match a with APython n p js => [VText n; VText p; VText js] | ACommand a => [VText (a_name a)] end.

(** ** Reading options *)
(** The words for yes, in any case. *)
Definition upper_letters := tx "ABCDEFGHIJKLMNOPQRSTUVWXYZ".
Definition small_letters := tx "abcdefghijklmnopqrstuvwxyz".
Definition small (c : ascii) : ascii :=
  match find (fun p => Ascii.eqb (fst p) c) (combine upper_letters small_letters) with Some p => snd p | None => c end.
Definition says_yes (v : text) : bool :=
  let w := map small v in eqb w (tx "1") || eqb w (tx "on") || eqb w (tx "true") || eqb w (tx "yes").
(** The value of an option, of its kind, from what is written in the file; None: it is not set. *)
Definition option_value (E : env) (convert : bool) (g : gres) (t : otype) (default : val) : option val :=
  match g with
  | GVal v =>
      if convert then
        match t with
        | TString => Some (VText v)
        | TBool => Some (VBool (says_yes v))
        | TInt => match e_int E v with Some z => Some (VInt z) | None => Some default end
        end
      else Some (VText v)
  | GNoOption => set_value (Some default)
  | GNoSection | GValueError | GOther => Some default
  end.

(** ** Filters *)
(** A parameter given in the jail: filter[option=value]; the file's own option in [Init]. *)
Definition param (params : dict text text) (k : text) : option val :=
  match dget k params with Some v => Some (VText v) | None => None end.
Definition own_init (f : dfile) (k : text) : option val :=
  match d_init f with
  | Some l => match dget k l with Some (GVal v) => Some (VText v) | _ => None end
  | None => None
  end.
(** The option in the file, the first of: parameter, [Init], [Definition]; the last not if the jail has the
    option, too.  [given] are the values [Definition] is interpolated with. *)
Definition file_value (E : env) (J : opts) (params : dict text text) (f : dfile) (given : opts) (k : text) : option val :=
  orelse (param params k) (orelse (own_init f k) (if dmem k J then None else option_value E false (d_get f given k) TString VNone)).
(** Names that have no meaning of their own. *)
Definition ordinary (k : text) : Prop := starts_with (tx "known/") k = false /\ k <> tx "__name__" /\ k <> tx "logtype".
(** The interpolation of tags gives dictionaries; it leaves an option alone (nothing to interpolate). *)
Definition gives_dicts (E : env) : Prop := forall ign o o', dwf o -> e_subst E ign o = Some o' -> dwf o'.
Definition leaves (E : env) (k : text) : Prop := forall ign o o', e_subst E ign o = Some o' -> dget k o' = dget k o.
Definition as_int (E : env) (v : option val) : option val :=
  match v with
  | Some (VText t) => match e_int E t with Some z => Some (VInt z) | None => None end
  | _ => None
  end.
(** The filter a jail has got: the text of its option filter, the parameters, the file. *)
Definition filter_of (E : env) (name : text) (params : dict text text) (f : dfile) : Prop :=
  exists t n l, e_get1 E name (tx "filter") = GVal t /\ full_text t n l /\ gives l params /\ e_filter E n = Some f.

(** ** Names of actions *)
Definition own_name (jail : text) (params : dict text text) : text := match dget (tx "name") params with Some n => n | None => jail end.
Definition has_prefix (p s : text) : Prop := exists r, s = p ++ r.

(** ** All jails *)
Inductive read_as (E : env) (force : bool) : list text -> list jail -> Prop :=
| RA_nil : read_as E force [] []
| RA_includes secs l : read_as E force secs l -> read_as E force (tx "INCLUDES" :: secs) l
| RA_disabled sec j secs l : sec <> tx "INCLUDES" -> jail_get_options E force sec = JOk j -> is_enabled force (j_opts j) = false ->
    read_as E force secs l -> read_as E force (sec :: secs) l
| RA_enabled sec j secs l : sec <> tx "INCLUDES" -> jail_get_options E force sec = JOk j -> is_enabled force (j_opts j) = true ->
    read_as E force secs l -> read_as E force (sec :: secs) (j :: l)
| RA_wrong sec j secs l : sec <> tx "INCLUDES" -> jail_get_options E force sec = JBad j ->
    read_as E force secs l -> read_as E force (sec :: secs) (j :: l).
Definition is_start (c : cmd) : bool := match c with CStart _ => true | _ => false end.
Definition is_error (c : cmd) : bool := match c with CError _ => true | _ => false end.
Definition about_jail (n : text) (c : cmd) : bool := match about c with Some m => eqb m n | None => false end.

(** ** Actions *)
Definition default_name (jail file n a : text) : Prop :=
  (exists r, n = jail ++ r /\ a = file ++ r) \/ ~ has_prefix jail n /\ a = file ++ tx "-" ++ n.
Definition action_name_is (jail file : text) (params : dict text text) (a : text) : Prop :=
  match dget (tx "actname") params with Some n => a = n | None => default_name jail file (own_name jail params) a end.
(** The action with a name in the list and its parameters. *)
Definition action_of (E : env) (name : text) (J : opts) (nd : text * dict text text) (a : act) : Prop :=
  match a with
  | APython n p js =>
      exists b, fst nd = b ++ tx ".py" /\ n = match dget (tx "actname") (snd nd) with Some n => n | None => b end
      /\ p = e_basedir E ++ tx "/action.d/" ++ fst nd
      /\ exists d, js = e_json E d /\ forall k, dget k d = if eqb k (tx "actname") then None else dget k (snd nd)
  | ACommand r =>
      (forall b, fst nd <> b ++ tx ".py") /\ action_name_is name (fst nd) (snd nd) (a_name r)
      /\ exists f given, e_action E (fst nd) = Some f
         /\ (forall k, In k (names action_opts) -> dget k (merge (a_opts r) (a_init r)) = file_value E J (snd nd) f given k)
         /\ (forall k, starts_with (tx "known/") k = false -> k <> tx "__name__" -> dget k (a_init r) =
               if eqb k (tx "actname") then Some (VText (a_name r))
               else if eqb k (tx "name") then Some (VText (own_name name (snd nd)))
               else orelse (param (snd nd) k) (own_init f k))
  end.

(** A jail that has been read, is enabled and has given the commands [s]; its filter has the values [F]. *)
Definition configured (E : env) (force allow : bool) (name : text) (j : jail) (F : opts) (s : list cmd) : Prop :=
  jail_get_options E force name = JOk j /\ is_enabled force (j_opts j) = true
  /\ jail_convert E allow j = COk s false /\ filter_values E j F.
