(** What tags, flags and named groups of a failregex mean, independent of the code. *)
From Verif Require Import Base Text.
From Coq Require Import Sorted.
Local Open Scope string_scope.
Local Open Scope list_scope.
Local Open Scope Z_scope.

(** ** Expressions with tags *)
(** An expression as the user writes it: plain text, [<HOST>], [<SKIPLINES>], a standard tag, a group
    between [<F-NAME>] and [</F-NAME>], and the closing tag of a group that was never opened. *)
Inductive pattern :=
| PEnd
| PText (t : text) (p : pattern)
| PHost (p : pattern)
| PSkip (p : pattern)
| PStd (n : text) (p : pattern)
| PGroup (n : text) (body p : pattern)
| PLoose (n : text) (p : pattern).

Definition bracket (n : text) : text := tx "<" ++ n ++ tx ">".
Fixpoint written (p : pattern) : text :=
  match p with
  | PEnd => []
  | PText t p => t ++ written p
  | PHost p => bracket (tx "HOST") ++ written p
  | PSkip p => bracket (tx "SKIPLINES") ++ written p
  | PStd n p => bracket n ++ written p
  | PGroup n b p => bracket (tx "F-" ++ n) ++ written b ++ bracket (tx "/F-" ++ n) ++ written p
  | PLoose n p => bracket (tx "/F-" ++ n) ++ written p
  end.

(** What the standard tags stand for. *)
Definition ip4_group : text := tx "(?:::f{4,6}:)?(?P<ip4>(?:\d{1,3}\.){3}\d{1,3})".
Definition ip6_group : text := tx "(?P<ip6>(?:[0-9a-fA-F]{1,4}::?|:){1,7}(?:[0-9a-fA-F]{1,4}|(?<=:):))".
Definition dns_group : text := tx "(?P<dns>[\w\-.^_]*\w)".
Definition cidr_group : text := tx "(?P<cidr>\d+)".
Definition either (a b : text) : text := tx "(?:" ++ a ++ tx "|" ++ b ++ tx ")".
Definition perhaps_bracketed (a : text) : text := tx "\[?" ++ a ++ tx "\]?".
Definition address : text := perhaps_bracketed (either ip4_group ip6_group).
Definition subnet : text := perhaps_bracketed (either ip4_group ip6_group ++ tx "(?:/" ++ cidr_group ++ tx ")?").
Definition host (use_dns : text) : text := if eqb use_dns (tx "no") then address else either address dns_group.
Definition standard_tags : list (string * text) :=
  [("IP4", ip4_group); ("IP6", ip6_group); ("ADDR", address); ("CIDR", cidr_group); ("SUBNET", subnet); ("DNS", dns_group);
   ("F-IP4/", ip4_group); ("F-IP6/", ip6_group); ("F-ADDR/", address); ("F-CIDR/", cidr_group); ("F-SUBNET/", subnet);
   ("F-DNS/", dns_group); ("F-ID/", tx "(?P<fid>\S+)"); ("F-PORT/", tx "(?P<fport>\w+)")].
Definition standard (n : text) : option text :=
  match find (fun e => eqb (tx (fst e)) n) standard_tags with Some (_, r) => Some r | None => None end.
(** The group of [<F-NAME>]: the name in small letters, but [fid] for [ID] and [fport] for [PORT]. *)
Definition small (c : ascii) : ascii :=
  if (65 <=? char_code c) && (char_code c <=? 90) then ascii_of_N (Z.to_N (char_code c + 32)) else c.
Definition group_name (n : text) : text :=
  if eqb (map small n) (tx "id") then tx "fid"
  else if eqb (map small n) (tx "port") then tx "fport"
  else map small n.

(** The expression a pattern means; [k] is the number of [<SKIPLINES>] before it. *)
Fixpoint skips (p : pattern) : Z :=
  match p with
  | PEnd => 0
  | PText _ p | PHost p | PStd _ p | PLoose _ p => skips p
  | PSkip p => 1 + skips p
  | PGroup _ b p => skips b + skips p
  end.
Fixpoint meaning (use_dns : text) (k : Z) (p : pattern) : text :=
  match p with
  | PEnd => []
  | PText t p => t ++ meaning use_dns k p
  | PHost p => host use_dns ++ meaning use_dns k p
  | PSkip p => tx "\n(?P<skiplines" ++ dec k ++ tx ">(?:(?:.*\n)*?))" ++ meaning use_dns (k + 1) p
  | PStd n p => match standard n with Some r => r | None => [] end ++ meaning use_dns k p
  | PGroup n b p => tx "(?P<" ++ group_name n ++ tx ">" ++ meaning use_dns k b ++ tx ")" ++ meaning use_dns (k + skips b) p
  | PLoose n p => bracket (tx "/F-" ++ n) ++ meaning use_dns k p
  end.

(** Characters of tags and of group names *)
Definition letter_digit (c : ascii) : Prop :=
  let n := char_code c in 48 <= n <= 57 \/ 65 <= n <= 90 \/ 97 <= n <= 122.
Definition in_tag (c : ascii) : Prop := letter_digit c \/ c = "_"%char \/ c = "-"%char \/ c = "/"%char.
Definition in_name (c : ascii) : Prop :=
  48 <= char_code c <= 57 \/ 65 <= char_code c <= 90 \/ c = "_"%char \/ c = "-"%char.
Definition name (n : text) : Prop := n <> [] /\ Forall in_name n.
Definition tag_with_meaning (n : text) : Prop :=
  n = tx "HOST" \/ n = tx "SKIPLINES" \/ standard n <> None \/ exists m, name m /\ (n = tx "F-" ++ m \/ n = tx "/F-" ++ m).
(** Plain text: wherever it has a [<], what follows goes on, inside the text, until a character that
    cannot stand in a tag; if that is [>], what is enclosed is no tag. *)
Definition plain (t : text) : Prop :=
  forall a b, t = a ++ "<"%char :: b ->
  exists n c d, b = n ++ c :: d /\ Forall in_tag n /\ ~ in_tag c /\ (c = ">"%char -> ~ tag_with_meaning n).

Fixpoint opened (p : pattern) : list text :=
  match p with
  | PEnd => []
  | PText _ p | PHost p | PSkip p | PStd _ p | PLoose _ p => opened p
  | PGroup n b p => n :: opened b ++ opened p
  end.
(** A proper pattern; [o] are the groups opened before. *)
Fixpoint proper (o : list text) (p : pattern) : Prop :=
  match p with
  | PEnd => True
  | PText t p => plain t /\ proper o p
  | PHost p | PSkip p => proper o p
  | PStd n p => standard n <> None /\ proper o p
  | PGroup n b p => name n /\ proper (n :: o) b /\ proper (n :: opened b ++ o) p
  | PLoose n p => name n /\ ~ In n o /\ proper o p
  end.

(** ** Flags *)
(** Flags at the beginning of a group: [((?i)...)] or [(?:(?i)...)] *)
Definition flags (f : text) : Prop := f <> [] /\ Forall (fun c => 97 <= char_code c <= 122) f.
Definition opens (o : text) : Prop := o = tx "(" \/ o = tx "(?:".
Definition escaped (a : text) : Prop := exists b, a = b ++ ["\"%char].

(** ** Named groups *)
(** [part_of pre k n]: the group [k] is a part of [n]: its name is [pre] followed by the name, perhaps
    followed by an underscore and a number. *)
Definition number (d : text) : Prop := d <> [] /\ Forall (fun c => 48 <= char_code c <= 57) d.
Definition numbered (r : text) : Prop := exists m d, r = m ++ "_"%char :: d /\ number d.
Definition part_of (pre k n : text) : Prop :=
  exists m, group_name m = n /\ m <> [] /\
            ((exists d, k = pre ++ m ++ "_"%char :: d /\ number d) \/ (k = pre ++ m /\ ~ numbered m)).
Definition alternative := part_of (tx "alt_").
Definition component := part_of (tx "tuple_").
(** The order of texts *)
Inductive before : text -> text -> Prop :=
| B_end c b : before [] (c :: b)
| B_less x y a b : char_code x < char_code y -> before (x :: a) (y :: b)
| B_same x a b : before a b -> before (x :: a) (x :: b).
Definition has_prefix (pre n : text) : Prop := exists r, n = pre ++ r.

(** A match: the named groups of the expression, each with what it matched, if it took part. *)
Definition matched (m : dict text (option text)) (k : text) : option text := match dget k m with Some v => v | None => None end.
Definition full (v : option text) : Prop := exists c r, v = Some (c :: r).
(** The single value of [n]: what it matched itself, unless that is nothing; else the first alternative. *)
Definition single (m : dict text (option text)) (n : text) (v : option text) : Prop :=
  (full (matched m n) /\ v = matched m n)
  \/ (~ full (matched m n) /\ exists k, alternative k n /\ full (matched m k) /\ v = matched m k /\
      forall k', alternative k' n -> full (matched m k') -> k' = k \/ before k k')
  \/ (~ full (matched m n) /\ v = matched m n /\ forall k, alternative k n -> ~ full (matched m k)).
