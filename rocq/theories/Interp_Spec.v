(** What the value of an option with references is. *)
From Verif Require Import Base Text Config_Model Config_Spec Interp_Model.

(** ** How a value is written *)
(** text as it is, a doubled percent sign, a reference %(name)s *)
Inductive piece := Lit (t : text) | Percent | Ref (name : text).
Definition written (p : piece) : text :=
  match p with Lit t => t | Percent => tx "%%" | Ref n => tx "%(" ++ n ++ tx ")s" end.
Definition well_written (p : piece) : Prop :=
  match p with Lit t => ~ In "%"%char t | Percent => True | Ref n => n <> [] /\ ~ In ")"%char n end.
(** What cannot be read: a percent sign that is neither doubled nor begins a reference *)
Definition malformed (s : text) : Prop :=
  exists r, s = "%"%char :: r /\ (forall q, r <> "%"%char :: q) /\ forall n q, well_written (Ref n) -> s <> written (Ref n) ++ q.

(** ** What it means *)
(** The meaning of pieces, one after the other, up to the first that has none *)
Inductive in_turn (of : piece -> res -> Prop) : list piece -> res -> Prop :=
| it_nil : in_turn of [] (Val [])
| it_err p ps e : of p (Err e) -> in_turn of (p :: ps) (Err e)
| it_val p ps a b : of p (Val a) -> in_turn of ps (Val b) -> in_turn of (p :: ps) (Val (a ++ b))
| it_later p ps a e : of p (Val a) -> in_turn of ps (Err e) -> in_turn of (p :: ps) (Err e).
(** The meaning of a text where names stand for [scope]; names are not told apart by case; references nest [d] levels deep *)
Inductive means (scope : text -> option text) : nat -> text -> res -> Prop :=
| m_deep v : means scope 0 v (Err TooDeep)
| m_good d ps r : Forall well_written ps -> in_turn (stands scope d) ps r -> means scope (S d) (flat_map written ps) r
| m_err d ps tail e : Forall well_written ps -> malformed tail -> in_turn (stands scope d) ps (Err e) ->
    means scope (S d) (flat_map written ps ++ tail) (Err e)
| m_bad d ps tail a : Forall well_written ps -> malformed tail -> in_turn (stands scope d) ps (Val a) ->
    means scope (S d) (flat_map written ps ++ tail) (Err Malformed)
with stands (scope : text -> option text) : nat -> piece -> res -> Prop :=
| s_lit d t : stands scope d (Lit t) (Val t)
| s_percent d : stands scope d Percent (Val (tx "%"))
| s_missing d n : scope (lower n) = None -> stands scope d (Ref n) (Err (Missing (lower n)))
| s_plain d n v : scope (lower n) = Some v -> ~ In "%"%char v -> stands scope d (Ref n) (Val v)
| s_nested d n v r : scope (lower n) = Some v -> In "%"%char v -> means scope d v r -> stands scope d (Ref n) r.

(** ** What a name stands for *)
Definition first_some {A} (a b : option A) : option A := match a with Some _ => a | None => b end.
(** The variable given last under a name, in any case *)
Definition given (vars : dict text text) (n : text) : option text :=
  last_of (map snd (filter (fun kv => eqb (lower (fst kv)) n) vars)).
(** [n] is written sec/opt *)
Definition is_cross (n sec opt : text) : Prop :=
  n = sec ++ "/"%char :: opt /\ sec <> [] /\ opt <> [] /\ Forall (fun c => is_word c = true \/ c = "-"%char) sec.
(** The option [opt] of the section [sec] as it is referred to from [section] *)
Inductive elsewhere (c : config) (section sec opt : text) : option text -> Prop :=
| e_default : sec = tx "default" -> elsewhere c section sec opt (dget opt (defaults c))
| e_known : sec = tx "known" -> elsewhere c section sec opt (first_some (value_of c (tx "KNOWN/" ++ section) opt) (dget opt (defaults c)))
| e_section : sec <> tx "default" -> sec <> tx "known" -> dget sec (sections c) <> None ->
    elsewhere c section sec opt (first_some (value_of c sec opt) (dget opt (defaults c)))
| e_none : sec <> tx "default" -> sec <> tx "known" -> dget sec (sections c) = None -> elsewhere c section sec opt None.
(** A name in [section]: the variables, the section, the defaults; then, if it is one, the option of another section *)
Inductive names (c : config) (section : text) (vars : dict text text) (n : text) : option text -> Prop :=
| n_name : n = tx "__name__" -> names c section vars n (Some section)
| n_own v : n <> tx "__name__" -> first_some (given vars n) (first_some (value_of c section n) (dget n (defaults c))) = Some v ->
    names c section vars n (Some v)
| n_cross sec opt x : n <> tx "__name__" -> first_some (given vars n) (first_some (value_of c section n) (dget n (defaults c))) = None ->
    is_cross n sec opt -> elsewhere c section sec opt x -> names c section vars n x
| n_none : n <> tx "__name__" -> first_some (given vars n) (first_some (value_of c section n) (dget n (defaults c))) = None ->
    (forall sec opt, ~ is_cross n sec opt) -> names c section vars n None.

(** ** Which values are meant *)
(** References into other sections are written in lower case, and no parenthesis follows a doubled percent sign *)
Definition tidy (v : text) : Prop :=
  (forall a b, v <> a ++ tx "%%(" ++ b) /\
  forall a n b, v = a ++ tx "%(" ++ n ++ tx ")s" ++ b -> ~ In ")"%char n -> In "/"%char n -> lower n = n.
Definition tidy_config (c : config) (section : text) (vars : dict text text) : Prop :=
  tidy section /\ (forall s o v, value_of c s o = Some v -> tidy v) /\ (forall o v, dget o (defaults c) = Some v -> tidy v) /\
  forall k v, In (k, v) vars -> tidy v.
(** No option bears the name of the module that interpolates *)
Definition no_module (c : config) (section : text) (vars : dict text text) : Prop :=
  value_of c section module_name = None /\ dget module_name (defaults c) = None /\ given vars module_name = None.
(** There is such a section *)
Definition there (c : config) (section : text) : Prop := dget section (sections c) <> None \/ section = tx "DEFAULT".
(** No reference into another section is written *)
Definition local_text (v : text) : Prop := forall a n b, v = a ++ tx "%(" ++ n ++ tx ")s" ++ b -> ~ In ")"%char n -> ~ In "/"%char n.

(** ** Options of other sections by name *)
(** [o] is written sec/opt, perhaps with a newline at the end *)
Definition ex_name (o sec opt : text) : Prop :=
  (o = sec ++ "/"%char :: opt \/ o = (sec ++ "/"%char :: opt) ++ ["010"%char]) /\ sec <> [] /\ opt <> [] /\
  Forall (fun c => is_word c = true \/ c = "-"%char) sec /\ Forall (fun c => is_space c = false /\ c <> ">"%char) opt.
(** The sections asked *)
Inductive asks (section sec : text) : list text -> Prop :=
| a_known : lower sec = tx "known" -> asks section sec [tx "KNOWN/" ++ section; section]
| a_default : lower sec = tx "default" -> asks section sec [tx "DEFAULT"]
| a_other : lower sec <> tx "known" -> lower sec <> tx "default" -> asks section sec [sec].
(** There is no such section or option *)
Definition unknown (r : res) : Prop := r = Err NoSection \/ r = Err NoOption.
Inductive first_known : list res -> res -> Prop :=
| f_here r l : ~ unknown r -> first_known (r :: l) r
| f_next r l x : unknown r -> first_known l x -> first_known (r :: l) x
| f_last r : first_known [r] r.
