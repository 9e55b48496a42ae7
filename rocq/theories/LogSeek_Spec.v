(** What the search for a time in a log has to find. *)
From Verif Require Import Base Text LogFile_Model LogSeek_Model.
Local Open Scope nat_scope.

(** a line begins at [q] *)
Definition begins (d : bytes) (q : nat) : Prop := q < length d /\ (q = 0 \/ nth_error d (q - 1) = Some LF).
(** the line at [q] has the time [t] *)
Definition timed (d : bytes) (dt : bytes -> stamp) (q : nat) (t : Z) : Prop :=
  begins d q /\ exists x rest, skipn q d = x ++ rest /\ dt x = Match (Some t) /\
    ((exists y, x = y ++ [LF] /\ ~ In LF y) \/ (~ In LF x /\ rest = [])).
(** the times do not go back *)
Definition ordered (d : bytes) (dt : bytes -> stamp) : Prop :=
  forall q1 q2 t1 t2, q1 <= q2 -> timed d dt q1 t1 -> timed d dt q2 t2 -> (t1 <= t2)%Z.
