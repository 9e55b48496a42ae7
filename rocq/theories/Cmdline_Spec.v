(** The command line as the manual tells of it. *)
From Verif Require Import Base Text Cmdline_Model.
Local Open Scope string_scope. Local Open Scope list_scope. Local Open Scope Z_scope.

(** A long option may be shortened, unless the beginning is that of two options. *)
Definition abbreviates (p n : text) (arg : bool) : Prop :=
  In (n, arg) long_opts /\
  (p = n \/ (~ In p (map fst long_opts) /\ (exists t, n = p ++ t) /\ forall n' a', In (n', a') long_opts -> (exists t, n' = p ++ t) -> n' = n)).
Definition flag (c : ascii) : Prop := In (c, false) short_opts.
Definition flags (fs : list ascii) : list opt := map (fun c => (tx "-" ++ [c], [])) fs.
(** How options are written: [--long], [--long value], [--long=value]; [-abc], [-abcvalue], [-abc value]. *)
Inductive group : list opt -> list text -> Prop :=
  | g_long p n : abbreviates p n false -> ~ In "="%char p -> group [(tx "--" ++ n, [])] [tx "--" ++ p]
  | g_long_next p n v : abbreviates p n true -> ~ In "="%char p -> group [(tx "--" ++ n, v)] [tx "--" ++ p; v]
  | g_long_eq p n v : abbreviates p n true -> ~ In "="%char p -> group [(tx "--" ++ n, v)] [tx "--" ++ p ++ tx "=" ++ v]
  | g_flags fs : fs <> [] -> Forall flag fs -> group (flags fs) [tx "-" ++ fs]
  | g_arg fs c v : Forall flag fs -> In (c, true) short_opts -> v <> [] -> group (flags fs ++ [(tx "-" ++ [c], v)]) [tx "-" ++ fs ++ c :: v]
  | g_arg_next fs c v : Forall flag fs -> In (c, true) short_opts -> group (flags fs ++ [(tx "-" ++ [c], v)]) [tx "-" ++ fs ++ [c]; v].
Inductive spelled : list opt -> list text -> Prop :=
  | s_nil : spelled [] []
  | s_cons o w os ws : group o w -> spelled os ws -> spelled (o ++ os) (w ++ ws).
(** The first word of a command is no option. *)
Definition command (a : list text) : Prop := match a with [] => True | w :: _ => w = tx "-" \/ forall t, w <> tx "-" ++ t end.

(** The last of these options *)
Fixpoint last_opt (names : list string) (os : list opt) : option opt :=
  match os with
  | [] => None
  | x :: r => match last_opt names r with Some y => Some y | None => if inb (fst x) (map tx names) then Some x else None end
  end.
Definition given (names : list string) (os : list opt) : Prop := exists x, In x os /\ In (fst x) (map tx names).
Fixpoint count (name : string) (os : list opt) : Z :=
  match os with [] => 0 | (o, _) :: r => (if eqb o (tx name) then 1 else 0) + count name r end.
(** The names on the command line of a setting *)
Definition settings : list (string * list string) :=
  [("conf", ["-c"; "--conf"]); ("socket", ["-s"; "--socket"]); ("pidfile", ["-p"; "--pidfile"]); ("pname", ["--pname"]); ("loglevel", ["--loglevel"]); ("logtarget", ["--logtarget"]); ("syslogsocket", ["--syslogsocket"])].
(** These end the program. *)
Definition ending : list string := ["-h"; "--help"; "-V"; "--version"; "--str2sec"].
(** The times given can be read. *)
Definition times_good (sec : text -> option Z) (os : list opt) : Prop := forall x, In x os -> In (fst x) (map tx ["--timeout"; "--str2sec"]) -> sec (snd x) <> None.
