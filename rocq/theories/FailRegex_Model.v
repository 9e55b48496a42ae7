(** Model of fail2ban/server/failregex.py:30-219 (tags and construction of an expression), 301-322
    (named groups of a match), 414-462 (expressions for failures), and of filter.py:876-888, 924-926
    (groups of the prefix expression).

    Simplifications:
    - the compilation by Python's [re] is a function from the text of the expression to the names of its
      groups, or an error; what a compiled expression finds is given by the groups of the match;
    - [\w], [\d] and blanks are those of the first 256 characters, letters those of ASCII;
    - [re.MULTILINE] and the match itself are left out (see Lines_Model). *)
From Verif Require Import Base Text Backtrack Tags_Model.
Local Open Scope string_scope.
Local Open Scope list_scope.
Local Open Scope Z_scope.

(** ** Tags *)
(** failregex.py:34-60, and ipdns.py:323-324 *)
Definition ip_4_re : text := tx "(?:\d{1,3}\.){3}\d{1,3}".
Definition ip_6_re : text := tx "(?:[0-9a-fA-F]{1,4}::?|:){1,7}(?:[0-9a-fA-F]{1,4}|(?<=:):)".
Definition r_ipv4 : text := tx "(?:::f{4,6}:)?(?P<ip4>" ++ ip_4_re ++ tx ")".
Definition r_ipv6 : text := tx "(?P<ip6>" ++ ip_6_re ++ tx ")".
Definition r_dns : text := tx "(?P<dns>[\w\-.^_]*\w)".
Definition r_cidr : text := tx "(?P<cidr>\d+)".
Definition r_addr : text := tx "\[?(?:" ++ r_ipv4 ++ tx "|" ++ r_ipv6 ++ tx ")\]?".
Definition r_host : text := tx "(?:" ++ r_addr ++ tx "|" ++ r_dns ++ tx ")".
Definition r_subnet : text := tx "\[?(?:" ++ r_ipv4 ++ tx "|" ++ r_ipv6 ++ tx ")(?:/" ++ r_cidr ++ tx ")?\]?".
(** failregex.py:62-85 RH4TAG *)
Definition rh4tag : dict text text :=
  [(tx "IP4", r_ipv4); (tx "F-IP4/", r_ipv4); (tx "IP6", r_ipv6); (tx "F-IP6/", r_ipv6);
   (tx "ADDR", r_addr); (tx "F-ADDR/", r_addr); (tx "CIDR", r_cidr); (tx "F-CIDR/", r_cidr);
   (tx "SUBNET", r_subnet); (tx "F-SUBNET/", r_subnet); (tx "DNS", r_dns); (tx "F-DNS/", r_dns);
   (tx "F-ID/", tx "(?P<fid>\S+)"); (tx "F-PORT/", tx "(?P<fport>\w+)")].

(** failregex.py:30 FTAG_CRE, [</?[\w\-]+/?>] at the head of the text: what stands between the
    brackets, and the rest. *)
Definition tag_char (c : ascii) : bool := word_char c || eqb c "-"%char.
Definition slash (s : text) : text * text :=
  match s with c :: r => if eqb c "/"%char then ([c], r) else ([], s) | [] => ([], s) end.
Definition take_tag (s : text) : option (text * text) :=
  match s with
  | c :: r =>
      if eqb c "<"%char then
        let '(s1, r1) := slash r in
        let '(w, r2) := run tag_char r1 in
        let '(s2, r3) := slash r2 in
        match w, r3 with
        | _ :: _, d :: rest => if eqb d ">"%char then Some (s1 ++ w ++ s2, rest) else None
        | _, _ => None
        end
      else None
  | [] => None
  end.
(** failregex.py:32 FCUSTNAME_CRE, [^(/?)F-([A-Z0-9_\-]+)$] *)
Definition name_char (c : ascii) : bool :=
  let k := char_code c in ((65 <=? k) && (k <=? 90)) || is_digit c || eqb c "_"%char || eqb c "-"%char.
Definition cust_name (tn : text) : option (bool * text) :=
  let '(s, r) := slash tn in
  match r with
  | f :: d :: n => if eqb f "F"%char && eqb d "-"%char && negb (eqb n []) && forallb name_char n
                   then Some (negb (eqb s []), n) else None
  | _ => None
  end.

Record tags := mkTags { open_tags : list text; nl : Z }.
(** failregex.py:180-216 substTag *)
Definition subst_tag (use_dns : text) (st : tags) (tn : text) : tags * text :=
  let tag := "<"%char :: tn ++ [">"%char] in
  if eqb tn (tx "HOST") then (st, if eqb use_dns (tx "no") then r_addr else r_host)
  else if eqb tn (tx "SKIPLINES") then
    (mkTags (open_tags st) (nl st + 1), tx "\n(?P<skiplines" ++ dec (nl st) ++ tx ">(?:(?:.*\n)*?))")
  else match dget tn rh4tag with
  | Some r => (st, r)
  | None =>
      match cust_name tn with
      | Some (true, n) => (st, if inb n (open_tags st) then tx ")" else tag)
      | Some (false, n) => (mkTags (n :: open_tags st) (nl st), tx "(?P<" ++ map_tag2opt n ++ tx ">")
      | None => (st, tag)
      end
  end.
(** failregex.py:219 FTAG_CRE.sub(substTag, regex): from left to right, without overlaps *)
Fixpoint sub_tags (fuel : nat) (use_dns : text) (st : tags) (s : text) : text :=
  match fuel, s with
  | S n, c :: r =>
      match take_tag s with
      | Some (tn, rest) => let '(st, out) := subst_tag use_dns st tn in out ++ sub_tags n use_dns st rest
      | None => c :: sub_tags n use_dns st r
      end
  | _, _ => []
  end.
(** failregex.py:173-219 _resolveHostTag *)
Definition resolve (use_dns s : text) : text := sub_tags (length s) use_dns (mkTags [] 0) s.

(** ** Flags *)
(** failregex.py:96 R_GLOB2LOCFLAGS, [(?<!\\)\((?:\?:)?(\(\?[a-z]+)\)] at the head of the text, after the
    character [p]: the flags, and the rest *)
Definition lower_letter (c : ascii) : bool := let k := char_code c in (97 <=? k) && (k <=? 122).
Definition drop_lit (l s : text) : option text := if eqb (firstn (length l) s) l then Some (skipn (length l) s) else None.
Definition take_flags (p : option ascii) (s : text) : option (text * text) :=
  match p with
  | Some "\"%char => None
  | _ =>
      match drop_lit (tx "(") s with
      | None => None
      | Some r =>
          let r := match drop_lit (tx "?:") r with Some r => r | None => r end in
          match drop_lit (tx "(?") r with
          | None => None
          | Some r =>
              let '(w, r) := run lower_letter r in
              match w, drop_lit (tx ")") r with
              | _ :: _, Some r => Some (w, r)
              | _, _ => None
              end
          end
      end
  end.
(** failregex.py:138-139 R_GLOB2LOCFLAGS[0].sub("\1:", regex) *)
Fixpoint sub_flags (fuel : nat) (p : option ascii) (s : text) : text :=
  match fuel, s with
  | S n, c :: r =>
      match take_flags p s with
      | Some (w, rest) => tx "(?" ++ w ++ tx ":" ++ sub_flags n (Some ")"%char) rest
      | None => c :: sub_flags n (Some c) r
      end
  | _, _ => []
  end.
Definition local_flags (s : text) : text := sub_flags (length s) None s.

(** ** Expressions *)
(** failregex.py:112 COMPLNAME_CRE, [^(alt_|tuple_)(.*?)(?:_\d+)?$]: whether it is an alternative, and the name *)
Definition number_end (r : text) : bool :=
  match r with
  | [] => true
  | c :: d => eqb c "_"%char && negb (eqb d []) && forallb is_digit d
  end.
Fixpoint lazy_name (r : text) : text :=
  if number_end r then [] else match r with c :: r => c :: lazy_name r | [] => [] end.
Definition compl_name (k : text) : option (bool * text) :=
  match drop_lit (tx "alt_") k with
  | Some r => Some (true, lazy_name r)
  | None => match drop_lit (tx "tuple_") k with
            | Some r => Some (false, lazy_name r)
            | None => None
            end
  end.
(** Python's order of texts *)
Fixpoint text_ltb (a b : text) : bool :=
  match a, b with
  | _, [] => false
  | [], _ :: _ => true
  | x :: a, y :: b => (char_code x <? char_code y) || (eqb x y && text_ltb a b)
  end.
(** list.sort() of pairs; the first parts differ *)
Fixpoint insert (p : text * text) (l : list (text * text)) : list (text * text) :=
  match l with
  | [] => [p]
  | q :: r => if text_ltb (fst q) (fst p) then q :: insert p r else p :: l
  end.
Definition sort (l : list (text * text)) : list (text * text) := fold_right insert [] l.

Record regex := mkRegex {
  rx_text : text;                  (* _regex *)
  rx_names : list text;            (* _regexObj.groupindex *)
  rx_alts : list (text * text);    (* _altValues *)
  rx_tuples : list (text * text)   (* _tupleValues *)
}.
(** failregex.py:145-154 *)
Definition parts (alt : bool) (names : list text) : list (text * text) :=
  sort (flat_map (fun k => match compl_name k with
                           | Some (a, n) => if Bool.eqb a alt then [(k, map_tag2opt n)] else []
                           | None => []
                           end) (filter (fun k => (4 <? length k)%nat) names)).
Definition blank (c : ascii) : bool :=
  let k := char_code c in ((9 <=? k) && (k <=? 13)) || ((28 <=? k) && (k <=? 32)) || (k =? 133) || (k =? 160).
(** failregex.py:129-161 Regex.__init__; [None] is a RegexException *)
Definition new_regex (compile : text -> option (list text)) (use_dns s : text) : option regex :=
  let s := resolve use_dns s in
  if forallb blank s then None
  else let s := local_flags s in
       match compile s with
       | Some names => Some (mkRegex s names (parts true names) (parts false names))
       | None => None
       end.

(** failregex.py:403-407 *)
Definition id_groups : list text := [tx "fid"; tx "ip4"; tx "ip6"; tx "dns"].
Definition id_presents : list text := id_groups ++ [tx "mlfid"].
Definition has_id (r : regex) : bool := existsb (fun g => inb g (rx_names r)) id_presents.
(** failregex.py:423-432 FailRegex.__init__ *)
Definition fail_regex (compile : text -> option (list text)) (pref : option regex) (use_dns s : text) : option regex :=
  match new_regex compile use_dns s with
  | None => None
  | Some r => if negb (has_id r) && match pref with None => true | Some p => negb (has_id p) end then None else Some r
  end.

(** ** Groups of a match *)
Inductive gval := GNone | GText (t : text) | GTuple (l : list gval).
Definition gdict := dict text gval.
Definition gget (g : gdict) (k : text) : gval := match dget k g with Some v => v | None => GNone end.
Definition truth (v : gval) : bool := match v with GNone | GText [] | GTuple [] => false | _ => true end.
(** failregex.py:308-311 *)
Definition merge_alt (g : gdict) (kn : text * text) : gdict :=
  let '(k, n) := kn in
  if truth (gget g k) && negb (truth (gget g n)) then dset n (gget g k) g else g.
(** failregex.py:314-321 *)
Definition merge_tuple (g : gdict) (kn : text * text) : gdict :=
  let '(k, n) := kn in
  dset n (match gget g n with GTuple l => GTuple (l ++ [gget g k]) | t => GTuple [t; gget g k] end) g.
(** failregex.py:301-322 getGroups; [m] is groupdict() *)
Definition get_groups (r : regex) (m : dict text (option text)) : gdict :=
  let g := map (fun kv => (fst kv, match snd kv with Some t => GText t | None => GNone end)) m in
  fold_left merge_tuple (rx_tuples r) (fold_left merge_alt (rx_alts r) g).
(** failregex.py:439-454 getFailID; [None] is a RegexException *)
Fixpoint get_fail_id (order : list text) (m : dict text (option text)) : option text :=
  match order with
  | [] => None
  | k :: r => match dget k m with Some (Some t) => Some t | _ => get_fail_id r m end
  end.
(** failregex.py:461-462 getHost *)
Definition get_host : dict text (option text) -> option text := get_fail_id [tx "ip4"; tx "ip6"; tx "dns"].
(** filter.py:883-888 and 924-926: the data of a match with the groups [pre] of the prefix expression *)
Definition with_prefix (pre : option gdict) (cur : gdict) : gdict :=
  match pre with
  | None => cur
  | Some p => fold_left (fun d kv => dset (fst kv) (snd kv) d) cur (ddel (tx "content") p)
  end.

Example tags_demo :
  resolve (tx "no") (tx "^x <HOST>:<F-USER>a</F-USER></F-X> <F-ID>b</F-ID><other><F-PORT/>")
  = tx "^x " ++ r_addr ++ tx ":(?P<user>a)</F-X> (?P<fid>b)<other>(?P<fport>\w+)".
Proof. vm_compute. reflexivity. Qed.
Example flags_demo : local_flags (tx "^a((?i)b)(?:(?is)c)\((?i)d") = tx "^a(?i:b)(?is:c)\((?i)d".
Proof. vm_compute. reflexivity. Qed.
Example groups_demo :
  let names := map tx ["user"; "alt_user_2"; "alt_user_1"; "fid"; "tuple_id"] in
  let r := mkRegex [] names (parts true names) (parts false names) in
  get_groups r [(tx "user", Some []); (tx "alt_user_2", Some (tx "b")); (tx "alt_user_1", Some (tx "a")); (tx "fid", Some (tx "x")); (tx "tuple_id", None)]
  = [(tx "user", GText (tx "a")); (tx "alt_user_2", GText (tx "b")); (tx "alt_user_1", GText (tx "a")); (tx "fid", GTuple [GText (tx "x"); GNone]); (tx "tuple_id", GNone)].
Proof. vm_compute. reflexivity. Qed.
