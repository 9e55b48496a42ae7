(** What is said about reading a configuration: where an include leads, which files are read in which order, and which value wins. *)
From Coq Require Import Relations.
From Verif Require Import Base Text Config_Model.

(** ** Names *)
Definition no_slash (s : text) : Prop := ~ In slash s.
Definition relative (s : text) : Prop := forall r, s <> slash :: r.
Definition ends_in_slash (s : text) : Prop := exists d, s = d ++ [slash].
(** The file that [line] names in the file [a]: itself if absolute, otherwise beside [a] *)
Inductive beside (a line : text) : text -> Prop :=
| b_abs r : line = slash :: r -> beside a line line
| b_here : relative line -> no_slash a -> beside a line line
| b_root s b : relative line -> a = s ++ b -> Forall (eq slash) s -> s <> [] -> no_slash b -> beside a line (s ++ line)
| b_dir d s b : relative line -> a = d ++ s ++ b -> Forall (eq slash) s -> s <> [] -> no_slash b -> d <> [] -> ~ ends_in_slash d ->
    beside a line (d ++ slash :: line).
(** A name with an extension: root, dot, extension, where the last part of the root is not made of dots only *)
Definition extension (f root ext : text) : Prop :=
  f = root ++ dot :: ext /\ no_slash ext /\ ~ In dot ext /\
  exists d c r, root = d ++ c :: r /\ no_slash (c :: r) /\ c <> dot.
(** Its local version *)
Inductive local_of (f : text) : text -> Prop :=
| l_ext root ext : extension f root ext -> local_of f (root ++ tx ".local")
| l_no : (forall root ext, ~ extension f root ext) -> local_of f (f ++ tx ".local").

(** ** Which files *)
(** The lines of the option [o] (before, after) of the section INCLUDES *)
Definition listed (p : parsed) (o : text) (lines : list text) : Prop :=
  match dget (tx "INCLUDES") (f_sections p) with
  | None => lines = []
  | Some s =>
      match dget o s, dget o (f_defaults p) with
      | Some v, _ | None, Some v => lines <> [] /\ v = join ["010"%char] lines /\ Forall (fun l => ~ In "010"%char l) lines
      | None, None => lines = []
      end
  end.
(** [a] includes [r] *)
Definition included (w : world) (a r : text) : Prop :=
  exists p o lines line, w_content w a = Some p /\ (o = tx "before" \/ o = tx "after") /\ listed p o lines /\ In line lines /\ beside a line r.
(** An include takes the local version of the file along *)
Definition with_local (w : world) (r : text) (l : list text) : Prop :=
  exists g, local_of r g /\ l = if negb (eqb g r) && w_isfile w g then [r; g] else [r].
(** [a] leads to [b]; in particular by taking it along as the local version of a file *)
Definition leads (w : world) (a b : text) : Prop := exists r l, included w a r /\ with_local w r l /\ In b l.
Definition drags (w : world) (a b : text) : Prop := exists r, included w a r /\ with_local w r [r; b].
Definition no_circle (R : text -> text -> Prop) : Prop := forall x, ~ clos_trans _ R x x.
Definition finitely_many (w : world) : Prop := exists files, forall f, w_content w f <> None -> In f files.

(** The files read for [f]: what it lists as before, itself, what it lists as after, each with its local version; a file that is being
    read already ([seen]) is left out *)
Inductive listing (w : world) : list text -> text -> list text -> Prop :=
| g_none seen f : w_content w f = None -> listing w seen f []
| g_some seen f p lb la bs als : w_content w f = Some p -> listed p (tx "before") lb -> listed p (tx "after") la ->
    Forall2 (part w seen f) lb bs -> Forall2 (part w seen f) la als -> listing w seen f (concat bs ++ [f] ++ concat als)
with part (w : world) : list text -> text -> text -> list text -> Prop :=
| p_seen seen f line r : beside f line r -> In r seen -> part w seen f line []
| p_new seen f line r names ls : beside f line r -> ~ In r seen -> with_local w r names -> Forall2 (listing w (seen ++ [f])) names ls ->
    part w seen f line (concat ls).
(** The same where nothing is included in circles *)
Inductive tree (w : world) : text -> list text -> Prop :=
| t_none f : w_content w f = None -> tree w f []
| t_some f p lb la bs als : w_content w f = Some p -> listed p (tx "before") lb -> listed p (tx "after") la ->
    Forall2 (branch w f) lb bs -> Forall2 (branch w f) la als -> tree w f (concat bs ++ [f] ++ concat als)
with branch (w : world) : text -> text -> list text -> Prop :=
| b_new f line r names ls : beside f line r -> with_local w r names -> Forall2 (tree w) names ls -> branch w f line (concat ls).

(** The files asked for, each with its local version if that is not asked for *)
Definition asked (w : world) (names l : list text) : Prop :=
  exists ls, l = concat ls /\
    Forall2 (fun f x => exists g, local_of f g /\ x = if negb (inb g names) && w_isfile w g then [f; g] else [f]) names ls.

(** ** Values *)
(** What a section of a file says: section, option, value; a conditional section [s?c] says it of the options o?c of the section s *)
Definition says_section (ns : text * dict text text) : list (text * text * text) :=
  match conditional (fst ns) with
  | Some (s, c) => map (fun kv => (s, fst kv ++ c, snd kv)) (filter (fun kv => negb (eqb (fst kv) (tx "__name__"))) (snd ns))
  | None => map (fun kv => (fst ns, fst kv, snd kv)) (snd ns)
  end.
Definition says (p : parsed) : list (text * text * text) := flat_map says_section (f_sections p).
(** What was said of an option, in the order it was *)
Definition said (s o : text) (l : list (text * text * text)) : list text :=
  map snd (filter (fun x => eqb (fst x) (s, o)) l).
Definition said_default (o : text) (l : list parsed) : list text :=
  map snd (filter (fun kv => eqb (fst kv) o) (flat_map f_defaults l)).
Definition last_of {A} (l : list A) : option A := match rev l with x :: _ => Some x | [] => None end.
Definition before_last_of {A} (l : list A) : option A := match rev l with _ :: x :: _ => Some x | _ => None end.
Definition value_of (c : config) (s o : text) : option text := match dget s (sections c) with Some d => dget o d | None => None end.
Definition known_name (s : text) : Prop := exists r, s = tx "KNOWN/" ++ r.
Definition empty : config := mkC [] [].
(** The options of a section are told once *)
Definition proper (p : parsed) : Prop := Forall (fun ns => dwf (snd ns)) (f_sections p).
(** What the files that were read say *)
Definition contents (w : world) (l : list text) : list parsed :=
  flat_map (fun f => match w_content w f with Some p => [p] | None => [] end) l.

(** The lists kept in a shared configuration after some readings *)
Inductive kept (w : world) : cache -> Prop :=
| k_new : kept w []
| k_read n c names c' l : kept w c -> get_includes n w true c names = Some (c', l) -> kept w c'.
