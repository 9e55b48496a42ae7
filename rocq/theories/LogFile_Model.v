(** Reading of log files: FileContainer and the reading loop of FileFilter (fail2ban/server/filter.py).

    Simplifications: a handle reads the file as it is at that moment (the read buffer of the Python file object is
    not modelled), one call of [readline] sees one content of the file; the warning of [decode_line] is left out;
    [waitForLineEnd] is always true (only fail2ban-regex clears it). *)
From Verif Require Import Base Text.
Local Open Scope nat_scope.
Notation bytes := (list ascii).
(** characters are code points *)
Notation chars := (list Z).
Definition LF : ascii := "010"%char.
Definition CR : ascii := "013"%char.

(** the rest of the line, with its new-line: [readline] of a binary Python file, here from the rest of the content *)
Fixpoint raw_line (l : bytes) : bytes :=
  match l with [] => [] | c :: r => if Ascii.eqb c LF then [c] else c :: raw_line r end.
Definition read_raw (data : bytes) (p : nat) : bytes := raw_line (skipn p data).
Definition newline_char (c : Z) : bool := (c =? 10)%Z || (c =? 13)%Z.
(** str.rstrip('\r\n') *)
Fixpoint rstrip (l : chars) : chars :=
  match l with
  | [] => []
  | c :: r => match rstrip r with [] => if newline_char c then [] else [c] | r' => c :: r' end
  end.
(** str.find('\n') *)
Fixpoint find_nl (l : chars) : option nat :=
  match l with [] => None | c :: r => if (c =? 10)%Z then Some 0 else option_map S (find_nl r) end.
Definition ends_line (l : bytes) : bool := match rev l with c :: _ => Ascii.eqb c LF || Ascii.eqb c CR | [] => false end.

(** A file has an inode number and content; the path names the file [w_cur] if it exists. *)
Definition ino := nat.
Record world := mkWorld { w_files : dict ino bytes; w_cur : option ino }.
Definition data (w : world) (i : ino) : bytes := match dget i (w_files w) with Some d => d | None => [] end.

(** filter.py:1332-1365 the fields of FileContainer; the handle is the file it was opened on and its position *)
Record cont := mkCont {
  c_pos : nat;
  c_hash : string;         (* "" if the first line is not complete *)
  c_ino : ino;
  c_next : Z;              (* __hashNextTime *)
  c_h : option (ino * nat) }.

Section Codec.
(** the log encoding: [dec] is [decode_line] (filter.py:1463-1484), [enc] is str.encode(.., 'replace'); [md5] the hash *)
Context (dec : bytes -> chars) (enc : chars -> bytes) (md5 : bytes -> string).

(** filter.py:1353-1357, 1415-1418 the hash of the first line, if it is complete *)
Definition first_hash (d : bytes) : string :=
  let first := raw_line d in if ends_line first then md5 first else ""%string.
(** filter.py:1334-1365 __init__ *)
Definition create (tail : bool) (now : Z) (i : ino) (d : bytes) : cont :=
  mkCont (if tail then length d else 0) (match d with [] => ""%string | _ => first_hash d end) i (now + 30) None.

(** filter.py:1402-1443 open; [None]: no such file; the answer: there is something to read *)
Definition open (now : Z) (w : world) (c : cont) : cont * option bool :=
  match w_cur w with
  | None => (c, None)
  | Some i =>
      let d := data w i in
      let rot := (length d <? c_pos c) || negb (i =? c_ino c) in
      let fresh := rot || eqb (c_hash c) ""%string || (c_next c <? now)%Z in
      let hash := if fresh then first_hash d else c_hash c in
      let next := if fresh && ends_line (raw_line d) then (now + 30)%Z else c_next c in
      let c :=
        if rot || negb (eqb hash (c_hash c)) then
          if negb (eqb (c_hash c) ""%string) then mkCont 0 hash i next (c_h c)
          else mkCont (c_pos c) hash (c_ino c) next (c_h c)
        else mkCont (c_pos c) (c_hash c) (c_ino c) next (c_h c) in
      if length d <=? c_pos c then (c, Some false)
      else (mkCont (c_pos c) (c_hash c) (c_ino c) (c_next c) (Some (i, c_pos c)), Some true)
  end.

(** filter.py:1512-1538 the loop that looks for the line end in the log encoding; [start] is the position before the
    line, [b] the bytes read so far, up to [p].  The answer: the line and the new position *)
Fixpoint fill (fuel : nat) (d : bytes) (start p : nat) (b : bytes) : option chars * nat :=
  match fuel with
  | 0 => (None, start)
  | S fuel =>
      match read_raw d p with
      | [] => (None, start)
      | more =>
          let b := b ++ more in
          let p := p + length more in
          let r := dec b in
          let l := rstrip r in
          let at_end := if eqb l r then fill fuel d start p b else (Some l, p) in
          match find_nl r with
          | Some e => if e =? length r - 1 then at_end else (Some (firstn e r), start + length (enc (firstn (e + 1) r)))
          | None => at_end
          end
      end
  end.
(** filter.py:1486-1539 readline *)
Definition readline (d : bytes) (p : nat) : option chars * nat :=
  match read_raw d p with
  | [] => (None, p)
  | b =>
      let r := dec b in
      let l := rstrip r in
      if eqb l r then fill (length d) d p (p + length b) b else (Some l, p + length b)
  end.

(** The filter of a jail on one log: events it leaves. *)
Inductive event :=
| Looked (i : ino) (size : nat)      (* the file was opened (or the log added) at that size *)
| Line (i : ino) (l : chars)         (* a line was delivered *)
| Lost (i : ino) (l : chars)         (* a line was read but dropped, because the jail is being stopped *)
| Bottom (i : ino) (size : nat).     (* the end of the file was reached at that size *)
Record st := mkSt {
  s_w : world;
  s_c : cont;
  s_active : bool;                   (* the jail is active *)
  s_trace : list event }.            (* newest first *)
Definition add (e : event) (tr : list event) : list event := e :: tr.

(** one atomic step of the loop: filter.py:1111-1167 getFailures opens, reads one line after the other, and closes the file *)
Definition look (now : Z) (s : st) : st :=
  match c_h (s_c s) with
  | None =>
      if negb (s_active s) then s else
      let '(c, o) := open now (s_w s) (s_c s) in
      mkSt (s_w s) c (s_active s) match o, w_cur (s_w s) with Some _, Some i => add (Looked i (length (data (s_w s) i))) (s_trace s) | _, _ => s_trace s end
  | Some (i, p) =>
      let '(l, p) := readline (data (s_w s) i) p in
      (* filter.py:1541-1547 close *)
      let closed := mkCont p (c_hash (s_c s)) (c_ino (s_c s)) (c_next (s_c s)) None in
      match l with
      | Some l =>
          if s_active s then mkSt (s_w s) (mkCont (c_pos (s_c s)) (c_hash (s_c s)) (c_ino (s_c s)) (c_next (s_c s)) (Some (i, p))) (s_active s) (add (Line i l) (s_trace s))
          else mkSt (s_w s) closed (s_active s) (add (Lost i l) (s_trace s))
      | None => mkSt (s_w s) closed (s_active s) (if s_active s then add (Bottom i (length (data (s_w s) i))) (s_trace s) else s_trace s)
      end
  end.

Inductive op :=
| Append (i : ino) (bs : bytes)      (* some program writes to a file *)
| Rotate (i : ino) (bs : bytes)      (* the path names another file from now on *)
| Truncate (i : ino) (bs : bytes)    (* a file is overwritten in place *)
| Remove                             (* the path is removed *)
| Step (now : Z)                     (* the filter does its next step *)
| Stop                               (* the jail is being stopped *)
| Restart (now : Z).                 (* fail2ban is started again, filter.py:1294-1296 onStop, 1015-1032 addLogPath without autoSeek *)

(** database.py:469-486 _addLog with the row (hash, pos) that onStop has left: the last position *)
Definition last_position (hash : string) (pos : nat) (hash' : string) : option nat := if eqb hash' hash then Some pos else None.
Definition restart (now : Z) (s : st) : st :=
  match w_cur (s_w s) with
  | None => s
  | Some i =>
      let d := data (s_w s) i in
      let c := create false now i d in
      let c := match last_position (c_hash (s_c s)) (c_pos (s_c s)) (c_hash c) with
               | Some (S p) => mkCont (S p) (c_hash c) (c_ino c) (c_next c) (c_h c)
               | _ => c
               end in
      mkSt (s_w s) c true (add (Looked i (length d)) (s_trace s))
  end.
Definition step (s : st) (o : op) : st :=
  match o with
  | Append i bs => mkSt (mkWorld (dset i (data (s_w s) i ++ bs) (w_files (s_w s))) (w_cur (s_w s))) (s_c s) (s_active s) (s_trace s)
  | Rotate i bs => mkSt (mkWorld (dset i bs (w_files (s_w s))) (Some i)) (s_c s) (s_active s) (s_trace s)
  | Truncate i bs => mkSt (mkWorld (dset i bs (w_files (s_w s))) (w_cur (s_w s))) (s_c s) (s_active s) (s_trace s)
  | Remove => mkSt (mkWorld (w_files (s_w s)) None) (s_c s) (s_active s) (s_trace s)
  | Step now => look now s
  | Stop => mkSt (s_w s) (s_c s) false (s_trace s)
  | Restart now => match c_h (s_c s) with None => restart now s | Some _ => s end
  end.
Fixpoint run (ops : list op) (s : st) : st := match ops with [] => s | o :: r => run r (step s o) end.
(** the log is added for the first time *)
Definition init (tail : bool) (now : Z) (i : ino) (d : bytes) : st :=
  mkSt (mkWorld [(i, d)] (Some i)) (create tail now i d) true [Looked i (length d)].
End Codec.

(** ** Two log encodings *)
(** every byte is a character: ISO-8859-1 *)
Definition dec_latin (b : bytes) : chars := map (fun c => Z.of_N (N_of_ascii c)) b.
Definition enc_latin (l : chars) : bytes := map (fun z => ascii_of_N (Z.to_N z)) l.
(** UTF-16LE, without surrogate pairs.  An odd byte at the end is an error: filter.py:1466-1469 cuts it off if it is a new-line byte,
    otherwise it is replaced by U+FFFD *)
Fixpoint dec_utf16 (b : bytes) : chars :=
  match b with
  | [] => []
  | [c] => if Ascii.eqb c LF || Ascii.eqb c CR then [] else [65533%Z]
  | lo :: hi :: r => (Z.of_N (N_of_ascii lo) + 256 * Z.of_N (N_of_ascii hi))%Z :: dec_utf16 r
  end.
Definition enc_utf16 (l : chars) : bytes :=
  flat_map (fun z => [ascii_of_N (Z.to_N (z mod 256)); ascii_of_N (Z.to_N (z / 256))]) l.
