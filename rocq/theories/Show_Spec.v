(** What a reader of the printed text sees. *)
From Verif Require Import Base Text Show_Model.
Local Open Scope string_scope. Local Open Scope list_scope.

Definition lines (out : text) : list text := split nl out.
Definition one_line (t : text) : Prop := ~ In nl t.
Definition one_word (t : text) : Prop := ~ In nl t /\ ~ In " "%char t.
Definition plain (v : value) : Prop := match v with VText t => one_line t | VList l => Forall one_word l end.
Definition plain_items (l : list (text * value)) : Prop := Forall (fun e => one_line (fst e) /\ plain (snd e)) l.
Definition plain_jail (l : list (text * list (text * value))) : Prop := Forall (fun e => one_line (fst e) /\ plain_items (snd e)) l.
(** The line without the branches drawn before it *)
Fixpoint bare (s : text) : text :=
  match s with c :: r => if inb c (" "%char :: "|"%char :: "`"%char :: "-"%char :: nil) then bare r else s | [] => [] end.
(** A name that begins with none of the signs of branches *)
Definition named (k : text) : Prop := exists c r, k = c :: r /\ inb c (" "%char :: "|"%char :: "`"%char :: "-"%char :: nil) = false.
(** What is to be read of a jail, line after line *)
Definition said (e : text * value) : text := fst e ++ tx ":" ++ [tab] ++ show_value (snd e).
Definition jail_said (l : list (text * list (text * value))) : list text := concat (map (fun e => fst e :: map said (snd e)) l).
