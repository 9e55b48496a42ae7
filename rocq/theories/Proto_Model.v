(** Model of the client/server protocol: fail2ban/compat/asynchat.py (async_chat),
    fail2ban/server/asyncserver.py (RequestHandler), fail2ban/client/csocket.py (CSocket).

    Bytes are characters.  pickle is a pair of arguments [loads], [dumps]; the transmitter is an
    argument [proceed].  Not modelled: the event loop and its error counters (asyncserver.py
    144-189), accept and the socket file (192-), errors raised by recv() and send() (the
    connection is lost), numeric terminators and producers that are no byte strings (not used). *)
From Verif Require Import Base Text.

Definition bytes := text.
(** protocol.py:42-46 *)
Definition END : bytes := tx "<F2B_END_COMMAND>".
Definition CLOSE : bytes := tx "<F2B_CLOSE_COMMAND>".

(** Python: s.startswith(p), s.endswith(p), s.find(p) *)
Fixpoint starts (p s : bytes) : bool :=
  match p, s with
  | [], _ => true
  | x :: p', y :: s' => eqb x y && starts p' s'
  | _ :: _, [] => false
  end.
Definition ends (p s : bytes) : bool := starts (rev p) (rev s).
Fixpoint find (p s : bytes) : option nat :=
  if starts p s then Some O
  else match s with [] => None | _ :: r => option_map S (find p r) end.

(** asynchat.py:306-310 find_prefix_at_end, from [l] down *)
Fixpoint prefix_at_end (l : nat) (hay needle : bytes) : nat :=
  match l with
  | O => O
  | S l' => if ends (firstn l needle) hay then l else prefix_at_end l' hay needle
  end.

(** asynchat.py:136-187, the while loop over the input buffer [b]; [parts] is what
    collect_incoming_data (asyncserver.py:82-84) has gathered; the result has the new buffer, the
    new parts and the messages found_terminator is called for, joined (asyncserver.py:97-102). *)
Fixpoint read_loop (fuel : nat) (b : bytes) (parts : list bytes) : bytes * list bytes * list bytes :=
  match fuel with
  | O => (b, parts, [])
  | S f =>
      match b with
      | [] => (b, parts, [])
      | _ =>
          match find END b with
          | Some i =>
              let parts := if Nat.ltb 0 i then parts ++ [firstn i b] else parts in
              let '(b', parts', ms) := read_loop f (skipn (i + length END) b) [] in
              (b', parts', concat parts :: ms)
          | None =>
              let k := prefix_at_end (length END - 1) b END in
              if Nat.eqb k 0 then ([], parts ++ [b], [])
              else if Nat.eqb k (length b) then (b, parts, [])
              else (skipn (length b - k) b, parts ++ [firstn (length b - k) b], [])
          end
      end
  end.

(** The way out: a queue of byte strings, None closes the connection. *)
Record outq := mkOut { o_fifo : list (option bytes); o_conn : bool; o_sent : bytes }.

(** asynchat.py:200-204: pieces of at most [obs] bytes *)
Fixpoint pieces (fuel obs : nat) (d : bytes) : list bytes :=
  match fuel with
  | O => [d]
  | S f => if Nat.ltb obs (length d) then firstn obs d :: pieces f obs (skipn obs d) else [d]
  end.
(** asynchat.py:227-265 initiate_send; the socket takes [k] bytes (or all that is offered) *)
Definition initiate_send (obs k : nat) (o : outq) : outq :=
  if negb (o_conn o) then o
  else match o_fifo o with
       | [] => o
       | None :: r => mkOut r false (o_sent o)
       | Some [] :: r => mkOut r true (o_sent o)
       | Some first :: r =>
           let data := firstn obs first in
           let n := Nat.min k (length data) in
           if Nat.eqb n 0 then o
           else mkOut (if Nat.ltb n (length data) || Nat.ltb obs (length first) then Some (skipn n first) :: r else r)
                      true (o_sent o ++ firstn n data)
       end.
(** asynchat.py:195-205 push *)
Definition push (obs : nat) (d : bytes) (k : nat) (o : outq) : outq :=
  initiate_send obs k (mkOut (o_fifo o ++ map Some (pieces (length d) obs d)) (o_conn o) (o_sent o)).
(** asynchat.py:223-225 *)
Definition close_when_done (o : outq) : outq := mkOut (o_fifo o ++ [None]) (o_conn o) (o_sent o).

Section Server.
Context {T Q R : Type}.
Context (loads : bytes -> option Q) (dumps : R -> option bytes) (error : bytes -> bytes).
Context (proceed : T -> Q -> T * R).
Context (obs : nat).

(** asyncserver.py:95-125 found_terminator: a message that cannot be loaded or an answer that
    cannot be dumped is answered by the dump of an error text *)
Definition answer (t : T) (m : bytes) : T * bytes :=
  match loads m with
  | None => (t, error m)
  | Some q => let '(t, r) := proceed t q in
              (t, match dumps r with Some d => d | None => error m end)
  end.

Record conn := mkConn { c_in : bytes; c_parts : list bytes; c_out : outq }.
Definition conn_init : conn := mkConn [] [] (mkOut [] true []).

(** [ks]: how much the socket takes at each push *)
Fixpoint found (ms : list bytes) (ks : list nat) (t : T) (o : outq) : T * outq :=
  match ms with
  | [] => (t, o)
  | m :: r =>
      if eqb m CLOSE then found r ks t (close_when_done o)
      else let '(t, a) := answer t m in
           found r (tl ks) t (push obs (a ++ END) (hd O ks) o)
  end.

Inductive event := Recv (chunk : bytes) (ks : list nat) | Writable (k : nat).
(** asynchat.py:117-190; a closed connection has no events *)
Definition conn_step (st : T * conn) (e : event) : T * conn :=
  let '(t, c) := st in
  if negb (o_conn (c_out c)) then st
  else match e with
       | Recv chunk ks =>
           let b := c_in c ++ chunk in
           let '(b', parts, ms) := read_loop (S (length b)) b (c_parts c) in
           let '(t, o) := found ms ks t (c_out c) in
           (t, mkConn b' parts o)
       | Writable k => (t, mkConn (c_in c) (c_parts c) (initiate_send obs k (c_out c)))
       end.
Definition conn_run (t : T) (es : list event) : T * conn := fold_left conn_step es (t, conn_init).
End Server.

(** csocket.py:50-55 send: each of the two send() calls may take fewer bytes than given *)
Definition client_send (msg : bytes) (k : nat) : bytes := firstn k msg ++ END.

(** csocket.py:79-93 receive *)
Inductive received := Got (m : bytes) | Waiting | Reset.
Definition tail_has_end (m : bytes) : bool :=
  match find END (last_n 32 m) with Some _ => true | None => false end.
Fixpoint receive (chunks : list bytes) (msg : bytes) : received :=
  if tail_has_end msg then Got msg
  else match chunks with
       | [] => Waiting
       | c :: r => if eqb c [] then Reset
                   else if eqb c END then Got msg
                   else receive r (msg ++ c)
       end.
