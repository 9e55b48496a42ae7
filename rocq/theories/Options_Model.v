(** Texts with options as in `filter = sshd[mode=aggressive]` and lists of words:
    fail2ban/helpers.py:284-358.

    Simplification: characters are those of ASCII ([\w] and [\s] know no others). *)
From Verif Require Import Base Text Backtrack.

(** [\s] and what str.strip() takes away *)
Definition is_space (c : ascii) : bool :=
  let n := char_code c in ((9 <=? n) && (n <=? 13) || (28 <=? n) && (n <=? 32))%Z.
(** [\w\-_\.] *)
Definition is_oname (c : ascii) : bool :=
  let n := char_code c in
  ((48 <=? n) && (n <=? 57) || (65 <=? n) && (n <=? 90) || (97 <=? n) && (n <=? 122) || (n =? 95) || (n =? 45) || (n =? 46))%Z.
Definition dquote : ascii := ascii_of_N 34.
Definition squote : ascii := ascii_of_N 39.
Definition comma : ascii := ","%char.
Definition opening : ascii := "["%char.
Definition closing : ascii := "]"%char.
Definition equals : ascii := "="%char.

(** str.strip() *)
Fixpoint lstrip (s : text) : text := match s with c :: r => if is_space c then lstrip r else s | [] => [] end.
Definition strip (s : text) : text := rev (lstrip (rev (lstrip s))).

(** helpers.py:322-323 OPTION_CRE: `^([^\[]+)(?:\[(.)\])?\s*$` with a star after the dot *)
Definition option_cre (s : text) : option (text * option text) :=
  many1 (but [opening]) _ s (fun r1 =>
    let name := taken s r1 in
    match lit opening _ r1 (fun r2 => many any _ r2 (fun r3 =>
            lit closing _ r3 (fun r4 => (many is_space ;; eos) _ r4 (fun _ => Some (name, Some (taken r2 r3)))))) with
    | Some x => Some x
    | None => (many is_space ;; eos) _ r1 (fun _ => Some (name, None))
    end).

(** helpers.py:328-329 OPTION_EXTRACT_CRE: one match at the beginning of [s] *)
Inductive item :=
| IOpt (name value : text) (rest : text)    (* group 1 and the group of the value *)
| IEnd (rest : text)                        (* `,?\s*$` *)
| IWrong.                                   (* wrngA or wrngB *)
(** `(?:,|\]\s*\[|$|(?P<wrngA>.+))` *)
Definition terminator (name value s : text) : option item :=
  match lit comma _ s (fun r => Some (IOpt name value r)) with
  | Some x => Some x
  | None =>
  match (lit closing ;; many is_space ;; lit opening) _ s (fun r => Some (IOpt name value r)) with
  | Some x => Some x
  | None =>
  match eos _ s (fun r => Some (IOpt name value r)) with
  | Some x => Some x
  | None => many1 any _ s (fun _ => Some IWrong)
  end end end.
(** a value in double quotes, in single quotes or `([^,\]]+)`, with stars for the pluses, and the
    terminator *)
Definition value_part (name s : text) : option item :=
  match lit dquote _ s (fun r => many (but [dquote]) _ r (fun r' => lit dquote _ r' (terminator name (taken r r')))) with
  | Some x => Some x
  | None =>
  match lit squote _ s (fun r => many (but [squote]) _ r (fun r' => lit squote _ r' (terminator name (taken r r')))) with
  | Some x => Some x
  | None => many (but [comma; closing]) _ s (fun r' => terminator name (taken s r') r')
  end end.
Definition next_item (s : text) : option item :=
  match many is_space _ s (fun r0 => many1 is_oname _ r0 (fun r1 => lit equals _ r1 (value_part (taken r0 r1)))) with
  | Some x => Some x
  | None =>
  match (opt (lit comma) ;; many is_space ;; eos) _ s (fun r => Some (IEnd r)) with
  | Some x => Some x
  | None => many1 any _ s (fun _ => Some IWrong)
  end end.

(** helpers.py:343-355 the loop over finditer; None: ValueError.  An empty match ends the loop at the
    end of the text, elsewhere the search goes on one character later. *)
Fixpoint items (fuel : nat) (s : text) (acc : dict text text) : option (dict text text) :=
  match fuel with
  | O => Some acc
  | S fuel =>
      match next_item s with
      | None | Some IWrong => None
      | Some (IOpt n v r) => items fuel r (dset (strip n) (strip v) acc)
      | Some (IEnd r) => match s with
                         | [] => Some acc
                         | _ :: s' => items fuel (if eqb (length r) (length s) then s' else r) acc
                         end
      end
  end.

(** helpers.py:336-356 extractOptions(option); None: ValueError *)
Definition extract_options (s : text) : option (text * dict text text) :=
  match option_cre s with
  | None => None
  | Some (name, None) => Some (name, [])
  | Some (name, Some optstr) =>
      match optstr with
      | [] => Some (name, [])
      | _ => match items (S (length optstr)) optstr [] with Some d => Some (name, d) | None => None end
      end
  end.

(** helpers.py:284-293 removeComments: `(?m)(?:^|\s)[\#;].` with a star after the dot; [bol]: at the
    beginning of a line *)
Definition is_hash (c : ascii) : bool := one_of [ "#"%char; ";"%char ] c.
Definition comment_at (bol : bool) (s : text) : option text :=
  let tail := (chr is_hash ;; many (but [newline])) in
  match (if bol then tail _ s Some else None) with
  | Some r => Some r
  | None => (chr is_space ;; tail) _ s Some
  end.
Fixpoint remove_comments (fuel : nat) (bol : bool) (s : text) : text :=
  match fuel with
  | O => s
  | S fuel =>
      match comment_at bol s with
      | Some r => remove_comments fuel false r
      | None => match s with [] => [] | c :: r => c :: remove_comments fuel (eqb c newline) r end
      end
  end.

(** helpers.py:295-306 splitwords(s, ignoreComments); `[\s,]+` *)
Definition is_sep (c : ascii) : bool := is_space c || one_of [comma] c.
Fixpoint re_split (fuel : nat) (cur : text) (s : text) : list text :=
  match fuel with
  | O => [rev cur]
  | S fuel =>
      match many1 is_sep _ s Some with
      | Some r => rev cur :: re_split fuel [] r
      | None => match s with [] => [rev cur] | c :: r => re_split fuel (c :: cur) r end
      end
  end.
Definition nonempty (s : text) : bool := match s with [] => false | _ => true end.
Definition splitwords (s : text) (ignoreComments : bool) : list text :=
  match s with
  | [] => []
  | _ =>
      let s := if ignoreComments then remove_comments (S (length s)) true s else s in
      filter nonempty (map strip (re_split (S (length s)) [] s))
  end.

(** helpers.py:331-332 OPTION_SPLIT_CRE: a name with its options, or else any characters but blanks;
    then blanks or the end of the text *)
Definition split_value : rx :=
  alt (lit dquote ;; many (but [dquote]) ;; lit dquote)
      (alt (lit squote ;; many (but [squote]) ;; lit squote) (many (but [comma; closing]))).
Definition split_body : rx :=
  many1 is_oname ;; lit equals ;; split_value ;; many is_space ;;
  opt (alt (lit comma) (lit closing ;; many is_space ;; lit opening)) ;; many is_space.
Definition split_group : rx := many is_space ;; lit opening ;; many is_space ;; star split_body ;; lit closing.
Definition split_name (c : ascii) : bool := but [opening] c && negb (is_space c).
Definition split_follow : rx := alt (lit newline ;; many is_space) (alt (many1 is_space) eos).
Definition split_cre : rx :=
  alt (many1 split_name ;; opt split_group ;; many is_space) (many1 (fun c => negb (is_space c))) ;; ahead split_follow.

(** helpers.py:357-358 splitWithOptions(option): findall *)
Fixpoint find_all (fuel : nat) (s : text) : list text :=
  match fuel with
  | O => []
  | S fuel =>
      match s with
      | [] => []
      | c :: r => match split_cre text s Some with
                  | Some rest => taken s rest :: find_all fuel rest
                  | None => find_all fuel r
                  end
      end
  end.
Definition split_with_options (s : text) : list text := find_all (S (length s)) s.

(** fail2ban/client/jailreader.py:186-195 the names and options of the actions of a jail; None:
    JailDefError *)
Fixpoint read_actions (l : list text) : option (list (text * dict text text)) :=
  match l with
  | [] => Some []
  | act :: l =>
      let act := strip act in
      if nonempty act then
        match extract_options act with
        | None => None
        | Some a => match read_actions l with None => None | Some r => Some (a :: r) end
        end
      else read_actions l
  end.
