(** What the reading of log files means, told from the files and the events alone. *)
From Verif Require Import Base Text LogFile_Model.
Local Open Scope nat_scope.

(** the lines taken from file [i] (oldest first); [Lost] ones are those dropped while the jail is being stopped *)
Fixpoint taken (i : ino) (tr : list event) : list chars :=
  match tr with
  | [] => []
  | Line j l :: r | Lost j l :: r => if j =? i then taken i r ++ [l] else taken i r
  | _ :: r => taken i r
  end.
Fixpoint delivered (i : ino) (tr : list event) : list chars :=
  match tr with
  | [] => []
  | Line j l :: r => if j =? i then delivered i r ++ [l] else delivered i r
  | _ :: r => delivered i r
  end.
(** the file looked at last and its size then *)
Fixpoint looked (tr : list event) : option (ino * nat) :=
  match tr with [] => None | Looked i n :: _ => Some (i, n) | _ :: r => looked r end.
(** when the filter looked at the file last, that had a new-line *)
Definition seen (w : world) (tr : list event) : Prop :=
  exists i n, looked tr = Some (i, n) /\ In LF (firstn n (data w i)).
(** where the reading of a file begins *)
Definition base (tail : bool) (i0 : ino) (d0 : bytes) (i : ino) : nat := if tail && (i =? i0) then length d0 else 0.

(** What may happen to the files: they are appended to and replaced by new files, [good] says what may be in them.
    A file is replaced, and fail2ban is restarted, only after the filter has seen a new-line in the file it reads,
    and after a restart the log is still that file. *)
Definition permitted (good : bytes -> Prop) (base : ino -> nat) (s : st) (o : op) : Prop :=
  match o with
  | Append i bs => dmem i (w_files (s_w s)) = true /\ good (skipn (base i) (data (s_w s) i ++ bs))
  | Rotate i bs => dmem i (w_files (s_w s)) = false /\ good bs /\ seen (s_w s) (s_trace s)
  | Truncate _ _ => False
  | Restart _ => seen (s_w s) (s_trace s) /\ forall i, w_cur (s_w s) = Some i -> exists n, looked (s_trace s) = Some (i, n)
  | Remove | Step _ | Stop => True
  end.
Section History.
Context (dec : bytes -> chars) (enc : chars -> bytes) (md5 : bytes -> string).
Fixpoint fair (good : bytes -> Prop) (base : ino -> nat) (ops : list op) (s : st) : Prop :=
  match ops with
  | [] => True
  | o :: r => permitted good base s o /\ fair good base r (step dec enc md5 s o)
  end.
End History.

(** [l] is [r] without the new-line characters at its end *)
Definition trimmed (r l : chars) : Prop :=
  exists e, r = l ++ e /\ (forall c, In c e -> c = 10%Z \/ c = 13%Z) /\ (forall x c, l = x ++ [c] -> c <> 10%Z /\ c <> 13%Z).
(** [xs] are the complete lines of [d] (without their new-lines), [rest] is after the last new-line *)
Definition lines_of (d : bytes) (xs : list bytes) (rest : bytes) : Prop :=
  d = concat (map (fun x => x ++ [LF]) xs) ++ rest /\ (forall x, In x xs -> ~ In LF x) /\ ~ In LF rest.
(** an encoding in which the new-line bytes are the new-line characters (ASCII, UTF-8, ISO-8859-x): what is read up to a
    new-line byte ends with a new-line character exactly if it ends with a new-line byte *)
Definition ascii_like (dec : bytes -> chars) : Prop :=
  forall b x c, b = x ++ [c] -> ~ In LF x -> (exists y z, dec b = y ++ [z] /\ (z = 10 \/ z = 13)%Z) <-> c = LF \/ c = CR.
Definition no_cr_at_end (d : bytes) : Prop := forall x, d <> x ++ [CR].

(** UTF-16LE content: what is there is the beginning of an encoded text, in which there is no byte 0D, and no character
    whose first byte is 0A begins a line *)
Definition plain_text (t : chars) : Prop :=
  (forall z, In z t -> 0 <= z < 65536 /\ z mod 256 <> 13 /\ z / 256 <> 13)%Z
  /\ (forall t1 z t2, t = t1 ++ 10%Z :: z :: t2 -> (z mod 256 <> 10)%Z).
Definition utf16_text (d : bytes) : Prop := exists t more, d ++ more = enc_utf16 t /\ plain_text t.
(** [ls] are the complete lines of the UTF-16LE content [d], [rest] is after the last new-line character *)
Definition lines16_of (d : bytes) (ls : list chars) (rest : bytes) : Prop :=
  d = enc_utf16 (concat (map (fun l => l ++ [10%Z]) ls)) ++ rest
  /\ (forall l, In l ls -> ~ In 10%Z l /\ forall z, In z l -> (0 <= z < 65536)%Z)
  /\ forall t more, rest = enc_utf16 t ++ more -> (forall z, In z t -> (0 <= z < 65536)%Z) -> ~ In 10%Z t.

(** the lines dropped, and how often a jail was stopped *)
Fixpoint losses (tr : list event) : nat :=
  match tr with [] => 0 | Lost _ _ :: r => S (losses r) | _ :: r => losses r end.
Fixpoint stops (ops : list op) : nat := match ops with [] => 0 | Stop :: r => S (stops r) | _ :: r => stops r end.

(** the content at the start: its part to be read is [good]; if reading starts at the end, there is a new-line before *)
Definition start_ok (good : bytes -> Prop) (tail : bool) (i0 : ino) (d0 : bytes) : Prop :=
  good (skipn (base tail i0 d0 i0) d0) /\ (tail = true -> d0 = [] \/ In LF d0).
