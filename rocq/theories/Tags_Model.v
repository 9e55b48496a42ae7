(** Model of tag substitution and shell quoting: fail2ban/helpers.py (substituteRecursiveTags),
    fail2ban/server/action.py (escapeTag, replaceTag, replaceDynamicTags) and
    fail2ban/server/utils.py (buildShellCmd).  Texts are lists of ASCII characters. *)
From Verif Require Import Base Text.
From Coq Require Import ZifyBool ZifyNat.

(** ** tags *)
(** helpers.py:369 TAG_CRE [<([^ <>]+)>] *)
Definition tag_char (c : ascii) : bool := negb (eqb c " "%char || eqb c "<"%char || eqb c ">"%char).
(** action.py:55 FCUSTAG_CRE [<F-([A-Z0-9_\-]+)>] *)
Definition fcus_char (c : ascii) : bool :=
  let k := char_code c in ((65 <=? k) && (k <=? 90)) || is_digit c || eqb c "_"%char || eqb c "-"%char.
Fixpoint span (p : ascii -> bool) (s : text) : text * text :=
  match s with
  | c :: r => if p c then let '(a, b) := span p r in (c :: a, b) else ([], s)
  | [] => ([], [])
  end.
(** a name of characters [p], then [>]: the name and the rest *)
Definition name_at (p : ascii -> bool) (s : text) : option (text * text) :=
  match span p s with
  | (c :: n, x :: r) => if eqb x ">"%char then Some (c :: n, r) else None
  | _ => None
  end.
Definition tag_at (s : text) : option (text * text) :=
  match s with c :: r => if eqb c "<"%char then name_at tag_char r else None | [] => None end.
Definition ftag_at (s : text) : option (text * text) :=
  match s with
  | a :: b :: c :: r => if eqb [a; b; c] (tx "<F-") then name_at fcus_char r else None
  | _ => None
  end.
(** re.sub with a function that may change a state *)
Fixpoint gsub {V} (at_ : text -> option (text * text)) (f : V -> text -> text -> V * text) (fuel : nat) (v : V) (s : text) : V * text :=
  match fuel, s with
  | S k, c :: r =>
      match at_ s with
      | Some (n, r') =>
          let m := firstn (length s - length r') s in
          let '(v, t) := f v n m in
          let '(v, t') := gsub at_ f k v r' in (v, t ++ t')
      | None => let '(v, t) := gsub at_ f k v r in (v, c :: t)
      end
  | _, _ => (v, s)
  end.
Definition sub_tags {V} (f : V -> text -> text -> V * text) (v : V) (s : text) : V * text := gsub tag_at f (length s) v s.

(** ** escapeTag *)
(** action.py:700 and 821 ESCAPE_CRE *)
Definition special (c : ascii) : bool :=
  existsb (eqb c) (tx "\#&;`|*?~<>^()[]{}$'" ++ [ascii_of_nat 34; ascii_of_nat 10; ascii_of_nat 13]).
(** action.py:702-729 escapeTag *)
Definition escape_char (c : ascii) : text :=
  if special c
  then "\"%char :: [if eqb c (ascii_of_nat 10) then "n"%char else if eqb c (ascii_of_nat 13) then "r"%char else c]
  else [c].
Definition escape_tag (v : text) : text := concat (map escape_char v).

(** ** substituteRecursiveTags *)
Definition MAX_TAG_REPLACE_COUNT : Z := 25.
(** re.search from a position: what is before the match, the name, the rest *)
Fixpoint search (s : text) : option (text * text * text) :=
  match tag_at s with
  | Some (n, r) => Some ([], n, r)
  | None => match s with
            | [] => None
            | c :: r => match search r with Some (b, n, r') => Some (c :: b, n, r') | None => None end
            end
  end.
(** str.replace *)
Fixpoint prefix_of (p s : text) : option text :=
  match p, s with
  | [], _ => Some s
  | a :: p', b :: s' => if eqb a b then prefix_of p' s' else None
  | _ :: _, [] => None
  end.
Fixpoint replace_all (fuel : nat) (p r s : text) : text :=
  match fuel, s with
  | S k, c :: s' => match prefix_of p s with Some rest => r ++ replace_all k p r rest | None => c :: replace_all k p r s' end
  | _, _ => s
  end.
Definition bracket (n : text) : text := "<"%char :: n ++ [">"%char].

Inductive res (A : Type) := Ok (a : A) | ValueError | OutOfFuel.
Arguments Ok {A} _. Arguments ValueError {A}. Arguments OutOfFuel {A}.

Section Subst.
Context (conditional : text) (ignore : list text) (addrepl : dict text text).
Definition counts := dict text Z.
Definition zget (d : counts) (k : text) (dflt : Z) : Z := match dget k d with Some z => z | None => dflt end.
(** helpers.py:429-436 *)
Definition lookup (tags : dict text text) (rtag : text) : option text :=
  match (if eqb conditional [] then None else dget (rtag ++ "?"%char :: conditional) tags) with
  | Some v => Some v
  | None => match dget rtag tags with Some v => Some v | None => dget rtag addrepl end
  end.
Definition mem (x : text) (l : list text) : bool := existsb (eqb x) l.
(** helpers.py:411-450, the loop for the value of [tag]: [pos] is where the search starts *)
Fixpoint interpolate (fuel : nat) (tags : dict text text) (tag : text) (value : text) (pos : nat) (rplc : counts) : res (text * counts) :=
  match fuel with
  | O => OutOfFuel
  | S f =>
      match search (skipn pos value) with
      | None => Ok (value, rplc)
      | Some (before, rtag, _) =>
          let start := (pos + length before)%nat in
          let end_ := (start + length (bracket rtag))%nat in
          if mem rtag ignore then interpolate f tags tag value end_ rplc
          else if eqb rtag tag || (MAX_TAG_REPLACE_COUNT <? zget rplc rtag 1) then ValueError
          else match lookup tags rtag with
               | None => interpolate f tags tag value end_ rplc
               | Some repl =>
                   interpolate f tags tag (replace_all (length value) (bracket rtag) repl value) start
                               (dset rtag (zget rplc rtag 0 + 1) rplc)
               end
      end
  end.
(** helpers.py:404-463, one tag of one pass; the state is the tags, the set of the tags done, the
    kept counts, the repeat flag.  [rplc] is changed in place where it is kept already. *)
Record sst := mkSst { s_tags : dict text text; s_done : list text; s_counts : dict text counts; s_rep : bool }.
Definition has (c : ascii) (s : text) : bool := existsb (eqb c) s.
Definition pass_tag (fuel : nat) (st : sst) (tag : text) : res sst :=
  if mem tag ignore || mem tag (s_done st) then Ok st
  else match dget tag (s_tags st) with
       | None => Ok st
       | Some orgval =>
           let kept := dget tag (s_counts st) in
           match interpolate fuel (s_tags st) tag orgval 0 (match kept with Some c => c | None => [] end) with
           | OutOfFuel => OutOfFuel
           | ValueError => ValueError
           | Ok (value, rplc) =>
               let counts1 := match kept with Some _ => dset tag rplc (s_counts st) | None => s_counts st end in
               let changed := negb (eqb orgval value) in
               let again := changed && match search value with Some _ => true | None => false end in
               Ok (mkSst (if changed then dset tag value (s_tags st) else s_tags st)
                         (if has "<"%char value then s_done st else tag :: s_done st)
                         (if again then dset tag rplc counts1 else counts1)
                         (s_rep st || again))
           end
       end.
Fixpoint pass (fuel : nat) (st : sst) (keys : list text) : res sst :=
  match keys with
  | [] => Ok st
  | k :: ks => match pass_tag fuel st k with Ok st' => pass fuel st' ks | ValueError => ValueError | OutOfFuel => OutOfFuel end
  end.
(** helpers.py:401-467 *)
Fixpoint passes (fuel : nat) (st : sst) : res (dict text text) :=
  match fuel with
  | O => OutOfFuel
  | S f =>
      match pass fuel (mkSst (s_tags st) (s_done st) (s_counts st) false) (map fst (s_tags st)) with
      | Ok st' => if s_rep st' then passes f st' else Ok (s_tags st')
      | ValueError => ValueError
      | OutOfFuel => OutOfFuel
      end
  end.
Definition substitute (fuel : nat) (tags : dict text text) : res (dict text text) := passes fuel (mkSst tags [] [] false).
End Subst.

(** ** replaceTag *)
(** action.py:316 *)
Definition escaped_tags : list text := map tx ["matches"; "ipmatches"; "ipjailmatches"]%string.
(** action.py:67-71 ADD_REPL_TAGS; the two host names are given *)
Definition add_repl (fq sh : text) (tag : text) : option text :=
  if eqb tag (tx "br") then Some [ascii_of_nat 10]
  else if eqb tag (tx "sp") then Some [" "%char]
  else if eqb tag (tx "fq-hostname") then Some fq
  else if eqb tag (tx "sh-hostname") then Some sh
  else None.
Section Replace.
Context (conditional : text) (add : text -> option text).
(** action.py:782-798 substVal of replaceTag, [info] is subInfo *)
Definition subst_static (info : dict text text) (tag m : text) : text :=
  match (match (if eqb conditional [] then None else dget (tag ++ "?"%char :: conditional) info) with
         | Some v => Some v | None => dget tag info end) with
  | Some v => if mem tag escaped_tags then escape_tag v else v
  | None => match add tag with Some v => v | None => m end
  end.
(** action.py:801-813, the loop *)
Fixpoint replace_loop (count : nat) (info : dict text text) (query : text) : res text :=
  let value := snd (sub_tags (fun _ n m => (tt, subst_static info n m)) tt query) in
  if eqb value query || negb (has "<"%char value) then Ok value
  else match count with
       | O => ValueError
       | S k => replace_loop k info value
       end.
(** action.py:732-819 replaceTag for a plain dictionary, without the cache *)
Definition replace_tag (fuel : nat) (query : text) (aInfo : dict text text) : res text :=
  if negb (has "<"%char query) then Ok query
  else match substitute conditional escaped_tags [] fuel aInfo with
       | Ok info => replace_loop 25 info query
       | ValueError => ValueError
       | OutOfFuel => OutOfFuel
       end.

(** ** replaceDynamicTags *)
(** Python's [\W], for the ASCII characters *)
Definition word_char (c : ascii) : bool :=
  let k := char_code c in ((65 <=? k) && (k <=? 90)) || ((97 <=? k) && (k <=? 122)) || is_digit c || eqb c "_"%char.
(** action.py:856 *)
Definition var_name (tag : text) : text := tx "f2bV_" ++ map (fun c => if word_char c then c else "_"%char) tag.
(** action.py:851-860 escapeVal *)
Definition escape_val (vars : dict text text) (tag value : text) : dict text text * text :=
  if existsb special value then (dset (var_name tag) value vars, "$"%char :: var_name tag) else (vars, value).
(** failregex.py:88-102 mapTag2Opt *)
Definition lower_char (c : ascii) : ascii :=
  let k := char_code c in if (65 <=? k) && (k <=? 90) then ascii_of_N (Z.to_N (k + 32)) else c.
Definition map_tag2opt (tag : text) : text :=
  let t := map lower_char tag in
  if eqb t (tx "id") then tx "fid" else if eqb t (tx "port") then tx "fport" else t.
(** what is given to the shell: a script, and a script with arguments *)
Inductive command := Script (s : text) | WithArgs (s : text) (args : list text).
(** utils.py:125-145 buildShellCmd *)
Fixpoint vars_stat (i : Z) (vars : dict text text) : text :=
  match vars with
  | [] => []
  | (k, _) :: r => k ++ tx "=$" ++ dec i ++ [" "%char] ++ vars_stat (i + 1) r
  end.
Definition build_shell_cmd (cmd : text) (vars : dict text text) : command :=
  WithArgs (vars_stat 0 vars ++ ascii_of_nat 10 :: cmd) (map snd vars).
(** action.py:865-874 and 883-889 *)
Definition subst_dyn (info : text -> option text) (vars : dict text text) (tag m : text) : dict text text * text :=
  match info tag with
  | Some v => escape_val vars tag v
  | None => (vars, match add tag with Some v => v | None => m end)
  end.
Definition subst_tick (tick : text -> option text) (vars : dict text text) (tag m : text) : dict text text * text :=
  let t := map_tag2opt tag in
  match tick t with
  | Some v => escape_val vars (tx "F_" ++ t) v
  | None => (vars, [])
  end.
(** action.py:824-896; [info] and [tick] give the values of aInfo and of its "F-*" as strings *)
Definition replace_dynamic_tags (cmd : text) (info tick : text -> option text) : command :=
  let '(vars, cmd) := sub_tags (subst_dyn info) [] cmd in
  let '(vars, cmd) := if has "<"%char cmd then gsub ftag_at (subst_tick tick) (length cmd) vars cmd else (vars, cmd) in
  match vars with
  | [] => Script cmd
  | _ => build_shell_cmd cmd vars
  end.
End Replace.
