(** Server processes, from their start to their end (fail2ban/server/server.py:109-235, asyncserver.py:225-330, client/fail2banserver.py:44-77):
    what they do to the PID file and to the file of the socket, any number of processes side by side; and the loop that serves clients
    (asyncserver.py:139-190).

    Simplifications: all processes use the same two paths; a directory that cannot be made counts as an exception of the next step; the check that the
    file of the socket is there and its removal are one step where nothing of the same process lies between them (close); the handler of a signal
    runs as one step of its process; the jails are there or not. *)
From Verif Require Import Base.

(** Where the main thread of a process is in Server.start (109-191) *)
Inductive place :=
| PInit        (* up to the installation of the signal handlers *)
| PPid         (* writes the PID file *)
| PObs         (* starts the observer *)
| PAsync       (* creates the AsyncServer *)
| PCheck       (* os.path.exists(sock), asyncserver.py:233 *)
| PRemove      (* self._remove_sock(), with force *)
| PBind        (* create_socket, bind *)
| PListen      (* listen, and the flags *)
| POnstart
| PLoop        (* loop *)
| PStop        (* self.__active = False; self.stop() *)
| PQuit        (* self.quit() *)
| PRmPid       (* removes the PID file *)
| Exited       (* start returned *)
| Escaped      (* start raised, and startServerDirect called quit *)
| Killed.
Inductive event := LComm | LObs | LJails | LForce | LDb | LSock.
Record proc := mkP {
  pc : place;
  force : bool;
  handlers : bool;      (* SIGTERM calls quit *)
  quitted : bool;       (* self.quit is lambda: False *)
  observer : bool;
  hasasync : bool;      (* self.__asyncServer is not None *)
  comm : bool;          (* the transmitter of the AsyncServer is not None *)
  isinit : bool;        (* __init *)
  isactive : bool;      (* __active *)
  isloop : bool;        (* __loop *)
  jails : bool;         (* jails are running *)
  db : bool;            (* the database is open *)
  log : list event
}.
Record world := mkWd { pidfile : option nat; sockfile : option nat; procs : list proc }.

Definition new_proc (f : bool) : proc := mkP PInit f false false false false false false false false false false [].
Definition at_place (c : place) (p : proc) : proc := mkP c (force p) (handlers p) (quitted p) (observer p) (hasasync p) (comm p) (isinit p) (isactive p) (isloop p) (jails p) (db p) (log p).
Definition note (e : event) (p : proc) : proc := mkP (pc p) (force p) (handlers p) (quitted p) (observer p) (hasasync p) (comm p) (isinit p) (isactive p) (isloop p) (jails p) (db p) (log p ++ [e]).

(** asyncserver.py:276-300 close: the flags of the process, and whether the file of the socket is removed *)
Definition close_flags (p : proc) : proc :=
  mkP (pc p) (force p) (handlers p) (quitted p) (observer p) (hasasync p) (comm p) (isinit p) false (if isactive p then false else isloop p) (jails p) (db p) (log p).
Definition close_sock (p : proc) (sock : option nat) : option nat := if isinit p then None else sock.
(** asyncserver.py:305-308 stop_communication *)
Definition stop_comm (p : proc) : proc := mkP (pc p) (force p) (handlers p) (quitted p) (observer p) (hasasync p) false (isinit p) (isactive p) (isloop p) (jails p) (db p) (log p).

(** server.py:193-235 quit: its stages *)
Definition stages : list (proc * option nat -> proc * option nat) :=
  [ (fun '(p, k) => if hasasync p then (note LComm (stop_comm p), k) else (p, k));
    (fun '(p, k) => (mkP (pc p) (force p) false (quitted p) (observer p) (hasasync p) (comm p) (isinit p) (isactive p) (isloop p) (jails p) (db p) (log p), k));
    (fun '(p, k) => if observer p then (note LObs p, k) else (p, k));
    (fun '(p, k) => (note LJails (mkP (pc p) (force p) (handlers p) (quitted p) (observer p) (hasasync p) (comm p) (isinit p) (isactive p) (isloop p) false (db p) (log p)), k));
    (fun '(p, k) => if observer p then (note LForce (mkP (pc p) (force p) (handlers p) (quitted p) false (hasasync p) (comm p) (isinit p) (isactive p) (isloop p) (jails p) (db p) (log p)), k) else (p, k));
    (fun '(p, k) => if db p then (note LDb (mkP (pc p) (force p) (handlers p) (quitted p) (observer p) (hasasync p) (comm p) (isinit p) (isactive p) (isloop p) (jails p) false (log p)), k) else (p, k));
    (fun '(p, k) => if hasasync p then
        let p1 := close_flags (stop_comm p) in
        (note LSock (mkP (pc p1) (force p1) (handlers p1) (quitted p1) (observer p1) false (comm p1) (isinit p1) (isactive p1) (isloop p1) (jails p1) (db p1) (log p1)), close_sock p k) else (p, k)) ].
(** [at_stage]: the stage that raises, if one does (it counts as not done) *)
Definition quit (at_stage : option nat) (p : proc) (k : option nat) : proc * option nat * bool :=
  if quitted p then (p, k, false) else
  let p0 := mkP (pc p) (force p) (handlers p) true (observer p) (hasasync p) (comm p) (isinit p) (isactive p) (isloop p) (jails p) (db p) (log p) in
  match at_stage with
  | Some n => (fold_left (fun x f => f x) (firstn n stages) (p0, k), (n <? length stages)%nat)
  | None => (fold_left (fun x f => f x) stages (p0, k), false)
  end.

(** What the outside does to a step: an exception, and the stage at which a quit raises *)
Record outcome := mkO { raises : bool; qraises : option nat }.
Definition fine : outcome := mkO false None.

(** One step of the main thread of process number i *)
Definition go (o : outcome) (i : nat) (p : proc) (w : world) : proc * option nat * option nat :=
  let pid := pidfile w in let k := sockfile w in
  match pc p with
  | PInit => (mkP PPid (force p) true (quitted p) (observer p) (hasasync p) (comm p) (isinit p) (isactive p) (isloop p) (jails p) (db p) (log p), pid, k)
  | PPid => (at_place PObs p, (if raises o then pid else Some i), k)     (* 155-163: an error is logged only *)
  | PObs => (mkP PAsync (force p) (handlers p) (quitted p) true (hasasync p) (comm p) (isinit p) (isactive p) (isloop p) (jails p) (db p) (log p), pid, k)
  | PAsync =>
      if raises o then (at_place Escaped (fst (fst (quit (qraises o) p k))), pid, snd (fst (quit (qraises o) p k))) else
      (mkP PCheck (force p) (handlers p) (quitted p) (observer p) true true false false false (jails p) (db p) (log p), pid, k)
  | PCheck =>
      match k with
      | Some _ => if force p then (at_place PRemove p, pid, k) else (at_place PQuit p, pid, k)
      | None => (at_place PBind p, pid, k)
      end
  | PRemove => (at_place PBind p, pid, None)
  | PBind =>
      match k with
      | Some _ => (at_place PQuit p, pid, k)          (* bind raises, as the file is there *)
      | None => if raises o then (at_place PQuit p, pid, k) else (at_place PListen p, pid, Some i)
      end
  | PListen =>
      if raises o then (at_place Escaped (fst (fst (quit (qraises o) p k))), pid, snd (fst (quit (qraises o) p k))) else
      (mkP POnstart (force p) (handlers p) (quitted p) (observer p) (hasasync p) (comm p) true true true (jails p) (db p) (log p), pid, k)
  | POnstart =>
      if raises o then (at_place Escaped (fst (fst (quit (qraises o) p k))), pid, snd (fst (quit (qraises o) p k))) else (at_place PLoop p, pid, k)
  | PLoop => if isloop p && negb (raises o) then (p, pid, k) else (at_place PStop p, pid, k)     (* [raises]: the loop gives up *)
  | PStop =>
      let p1 := mkP PQuit (force p) (handlers p) (quitted p) (observer p) (hasasync p) (comm p) (isinit p) false (isloop p) (jails p) (db p) (log p) in
      (close_flags (stop_comm p1), pid, close_sock p1 k)
  | PQuit =>
      let '(p1, k1, bad) := quit (qraises o) p k in
      (at_place (if bad then Escaped else PRmPid) p1, pid, k1)
  | PRmPid => (at_place Exited p, None, k)            (* 184-189; no file: logged only *)
  | Exited | Escaped | Killed => (p, pid, k)
  end.

Definition ended (c : place) : bool := match c with Exited | Escaped | Killed => true | _ => false end.
(** SIGTERM: server.py:97-99, 148-151; without the handler the process ends at once *)
Definition signal (qr : option nat) (p : proc) (k : option nat) : proc * option nat :=
  if ended (pc p) then (p, k) else
  if handlers p then
    let '(p1, k1, bad) := quit qr p k in
    (if bad then match pc p with PLoop => p1 | _ => at_place Escaped p1 end else p1, k1)
  else (at_place Killed p, k).
(** The command stop: transmitter.py, Server.quit; an exception is answered *)
Definition command_stop (qr : option nat) (p : proc) (k : option nat) : proc * option nat :=
  match pc p with
  | PLoop => if isloop p && comm p then let '(p1, k1, _) := quit qr p k in (p1, k1) else (p, k)
  | _ => (p, k)
  end.
(** Commands that open the database and start jails *)
Definition configure (p : proc) : proc :=
  match pc p with
  | PLoop => if isloop p && comm p then mkP (pc p) (force p) (handlers p) (quitted p) (observer p) (hasasync p) (comm p) (isinit p) (isactive p) (isloop p) true true (log p) else p
  | _ => p
  end.

Inductive label := Start (f : bool) | Go (i : nat) (o : outcome) | Sig (i : nat) (qr : option nat) | CmdStop (i : nat) (qr : option nat) | Cfg (i : nat) | Kill (i : nat).
Definition upd {A} (i : nat) (x : A) (l : list A) : list A := firstn i l ++ x :: skipn (S i) l.
Definition step (w : world) (l : label) : world :=
  match l with
  | Start f => mkWd (pidfile w) (sockfile w) (procs w ++ [new_proc f])
  | Go i o => match nth_error (procs w) i with
              | Some p => let '(p1, pid, k) := go o i p w in mkWd pid k (upd i p1 (procs w))
              | None => w end
  | Sig i qr => match nth_error (procs w) i with
                | Some p => let '(p1, k) := signal qr p (sockfile w) in mkWd (pidfile w) k (upd i p1 (procs w))
                | None => w end
  | CmdStop i qr => match nth_error (procs w) i with
                | Some p => let '(p1, k) := command_stop qr p (sockfile w) in mkWd (pidfile w) k (upd i p1 (procs w))
                | None => w end
  | Cfg i => match nth_error (procs w) i with Some p => mkWd (pidfile w) (sockfile w) (upd i (configure p) (procs w)) | None => w end
  | Kill i => match nth_error (procs w) i with
              | Some p => mkWd (pidfile w) (sockfile w) (upd i (if ended (pc p) then p else at_place Killed p) (procs w)) | None => w end
  end.
Definition init : world := mkWd None None [].
Definition run (w : world) (l : list label) : world := fold_left step l w.

(** ** The loop (asyncserver.py:139-190) *)
Inductive poll_result := Fine | Fails (no_args emfile : bool).   (* an exception: has it no arguments; is the first EMFILE *)
Inductive loop_end := Going (listen : Z) (logged : nat) | GaveUp (listen : Z) | Crashed.
(** one turn while active stays true; [accept]: the errors counted by handle_accept *)
Definition turn (accept : Z) (st : loop_end) (r : poll_result) : loop_end :=
  match st with
  | Going n lg =>
      match r with
      | Fine => Going (if n =? 0 then 0 else n - 1) lg
      | Fails no_args emfile =>
          let n1 := n + 1 in
          if n1 <? 20 then (if no_args then Crashed else Going n1 (S lg))     (* e.args[0] *)
          else if n1 =? 20 then Going n1 (S lg)
          else if 100 <? n1 then
            (if no_args then Crashed else if emfile || (1000 <? n1 + accept) then GaveUp n1 else Going n1 lg)
          else Going n1 lg
      end
  | _ => st
  end.
Definition loop_run (accept : Z) (l : list poll_result) : loop_end := fold_left (turn accept) l (Going 0 0%nat).
