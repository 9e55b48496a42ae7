(** Where messages of the server should go. *)
From Verif Require Import Base Text Logs_Model.
Local Open Scope string_scope. Local Open Scope list_scope. Local Open Scope Z_scope.

(** the names of targets that are no files, in any case of letters *)
Definition is_named (t : text) (n : string) : Prop := upper t = tx n.
Definition is_file (t : text) : Prop :=
  ~ is_named t "INHERITED" /\ ~ is_named t "SYSTEMD-JOURNAL" /\ ~ is_named t "SYSLOG" /\ ~ is_named t "STDOUT" /\ ~ is_named t "SYSOUT" /\ ~ is_named t "STDERR".
(** A message written there went to the target [t]; for files see C117. *)
Definition went_to (t : text) (k : sink) : Prop :=
  match k with
  | SFile _ => is_file t
  | SSyslog _ _ => is_named t "SYSLOG"
  | SOut => is_named t "STDOUT" \/ is_named t "SYSOUT"
  | SErr => is_named t "STDERR"
  | SJournal => is_named t "SYSTEMD-JOURNAL"
  end.
(** Nobody asks for the target of the parent process. *)
Definition own_target (o : op) : Prop := match o with OTarget _ t _ => ~ is_named t "INHERITED" | _ => True end.
(** There are fewer files than the next number; names are listed once. *)
Definition proper_files (f : dict text nat) (n : nat) : Prop := NoDup (map fst f) /\ forall p i, dget p f = Some i -> (i < n)%nat.
(** All levels have the same numbers throughout. *)
Definition levels_are (L : text -> option Z) (o : op) : Prop :=
  match o with OTarget w _ _ | OSocket w _ | OLevel w _ | OFlush w | OLog w _ _ => w_levels w = L | ORename _ _ => True end.
