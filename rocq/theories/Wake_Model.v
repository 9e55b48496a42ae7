(** The observer thread and its waking (fail2ban/server/observer.py:108-289, 298-340, 353-361): each step of the thread and of the calls of
    other threads that another thread can see, in any order.

    Simplifications: events are numbers; a handler does nothing else than to be executed, with or without an exception (what it adds
    is a call like any other); one stop at a time (as in Server.quit); the queue is seen as empty or not once at the end of
    wait_empty, after any time. *)
From Verif Require Import Base.

(** Where the thread is in run (observer.py:203-250) *)
Inductive place :=
| Outer                 (* while self.active *)
| Inner                 (* while not self._paused *)
| Pop                   (* with self._queue_lock: ... pop(0) *)
| Exec (ev : nat)       (* meth(..) *)
| Look                  (* n = self._notify *)
| Wait                  (* n.wait(self.sleeptime) *)
| Wiped                 (* n.clear() *)
| Nap                   (* time.sleep(..); if not self.is_full: break *)
| Leave                 (* self._notify = None *)
| Flush                 (* self._queue = [] *)
| Gone.
(** Where a call is: in pulse_notify (146-153), or before the assignment in the setter of paused (335-338) *)
Inductive call := Check | Read | Ring | Assign (b : bool).
(** Where a stop is (268-289): in wait_empty, or at the statements after it *)
Inductive stopping := Empty (force : bool) | Clear | Deactivate | Pause.
Record state := mkW {
  queue : list (bool * nat);   (* _queue; true: added by add, which notifies *)
  done : list (nat * bool);    (* executed, and whether it raised *)
  flag : bool;                 (* the flag of the Event *)
  notify : bool;               (* _notify is not None *)
  paused : bool;
  active : bool;
  thread : place;
  calls : list call;
  stop : option stopping
}.
Definition init : state := mkW [] [] false true false true Outer [] None.

Inductive label :=
| Add (ev : nat)            (* add: append to the queue *)
| AddWn (ev : nat)          (* add_wn *)
| SetPaused (b : bool)      (* paused = b: the comparison *)
| Call (i : nat)            (* the next step of the i-th call *)
| StopReq (ev : nat) (force : bool)   (* stop: up to the end of the lock (269-279) *)
| Stop                      (* the next step of the stop *)
| Step (raises : bool)      (* the next step of the thread, if it is not asleep *)
| Timeout.                  (* n.wait returns for the time *)

Definition w_queue q s := mkW q (done s) (flag s) (notify s) (paused s) (active s) (thread s) (calls s) (stop s).
Definition w_done d s := mkW (queue s) d (flag s) (notify s) (paused s) (active s) (thread s) (calls s) (stop s).
Definition w_flag f s := mkW (queue s) (done s) f (notify s) (paused s) (active s) (thread s) (calls s) (stop s).
Definition w_notify n s := mkW (queue s) (done s) (flag s) n (paused s) (active s) (thread s) (calls s) (stop s).
Definition w_paused p s := mkW (queue s) (done s) (flag s) (notify s) p (active s) (thread s) (calls s) (stop s).
Definition w_active a s := mkW (queue s) (done s) (flag s) (notify s) (paused s) a (thread s) (calls s) (stop s).
Definition w_thread t s := mkW (queue s) (done s) (flag s) (notify s) (paused s) (active s) t (calls s) (stop s).
Definition w_calls c s := mkW (queue s) (done s) (flag s) (notify s) (paused s) (active s) (thread s) c (stop s).
Definition w_stop x s := mkW (queue s) (done s) (flag s) (notify s) (paused s) (active s) (thread s) (calls s) x.

Definition is_nil {A} (l : list A) : bool := match l with [] => true | _ => false end.
(** observer.py:203-250 *)
Definition thread_step (raises : bool) (s : state) : state :=
  match thread s with
  | Outer => w_thread (if active s then Inner else Leave) s
  | Inner => w_thread (if paused s then Look else Pop) s
  | Pop => match queue s with [] => w_thread Look s | e :: q => w_thread (Exec (snd e)) (w_queue q s) end
  | Exec e => w_thread Inner (w_done (done s ++ [(e, raises)]) s)
  | Look => w_thread (if notify s then Wait else Nap) s
  | Wait => if flag s then w_thread Wiped s else s
  | Wiped => w_thread Outer (w_flag false s)
  | Nap => w_thread (if is_nil (queue s) then Leave else Outer) s
  | Leave => w_thread Flush (w_notify false s)
  | Flush => w_thread Gone (w_queue [] s)
  | Gone => s
  end.
Definition replace_nth {A} (i : nat) (x : list A) (l : list A) : list A := firstn i l ++ x ++ skipn (S i) l.
(** observer.py:146-153, 334-340 *)
Definition call_step (i : nat) (s : state) : state :=
  match nth_error (calls s) i with
  | None => s
  | Some Check => w_calls (replace_nth i (if paused s then [] else [Read]) (calls s)) s
  | Some Read => w_calls (replace_nth i (if notify s then [Ring] else []) (calls s)) s
  | Some Ring => w_flag true (w_calls (replace_nth i [] (calls s)) s)
  | Some (Assign b) => w_paused b (w_calls (replace_nth i [Check] (calls s)) s)
  end.
(** observer.py:281-287 *)
Definition stop_step (s : state) : state :=
  match stop s with
  | None => s
  | Some (Empty force) => if is_nil (queue s) || force then w_stop (Some Clear) s else w_stop None (w_notify true s)
  | Some Clear => w_stop (Some Deactivate) (w_flag false s)
  | Some Deactivate => w_stop (Some Pause) (w_active false s)
  | Some Pause => w_stop None (w_paused true s)
  end.
Definition step (s : state) (l : label) : state :=
  match l with
  | Add ev => w_calls (calls s ++ [Check]) (w_queue (queue s ++ [(true, ev)]) s)
  | AddWn ev => w_queue (queue s ++ [(false, ev)]) s
  | SetPaused b => if Bool.eqb (paused s) b then s else w_calls (calls s ++ [Assign b]) s
  | Call i => call_step i s
  | StopReq ev force =>
      match stop s with
      | None => if active s && notify s then w_stop (Some (Empty force)) (w_notify false (w_flag true (w_queue (queue s ++ [(false, ev)]) s))) else s
      | Some _ => s
      end
  | Stop => stop_step s
  | Step raises => thread_step raises s
  | Timeout => match thread s with Wait => w_thread Wiped s | _ => s end
  end.
Definition run (s : state) (l : list label) : state := fold_left step l s.

(** ** Timers (observer.py:108-144, 185, 353-361) *)
Inductive tevent := Purge | Other (n : nat).
Record timer := mkT { t_id : nat; t_name : option string; t_due : Z; t_event : tevent }.
Record timers := mkTs {
  now : Z;
  named : dict string nat;        (* _timers *)
  armed : list timer;             (* the timers that were started and neither fired nor were cancelled *)
  next_id : nat;
  waiting : list tevent;          (* the queue *)
  db : bool;                      (* there is a database *)
  purged : list (Z * bool)        (* when the database was purged, and whether that raised *)
}.
Definition purge_interval : Z := 60 * 60.
(** observer.py:108-119 add_named_timer; cancel of a timer that fired does nothing *)
Definition add_named_timer (name : string) (start : Z) (ev : tevent) (s : timers) : timers :=
  let a := match dget name (named s) with Some i => filter (fun t => negb (Nat.eqb (t_id t) i)) (armed s) | None => armed s end in
  mkTs (now s) (dset name (next_id s) (named s)) (a ++ [mkT (next_id s) (Some name) (now s + start) ev]) (S (next_id s)) (waiting s) (db s) (purged s).
(** observer.py:121-133 add_timer, where the clock is not that of a test *)
Definition add_timer (start : Z) (ev : tevent) (s : timers) : timers :=
  mkTs (now s) (named s) (armed s ++ [mkT (next_id s) None (now s + start) ev]) (S (next_id s)) (waiting s) (db s) (purged s).
(** observer.py:353-361 db_purge *)
Definition db_purge (raises : bool) (s : timers) : timers :=
  let s1 := if db s then mkTs (now s) (named s) (armed s) (next_id s) (waiting s) (db s) (purged s ++ [(now s, raises)]) else s in
  if db s && raises then s1 else add_named_timer "DB_PURGE" purge_interval Purge s1.
Inductive tlabel :=
| TNamed (name : string) (start : Z) (ev : tevent) | TTimer (start : Z) (ev : tevent) | TAdd (ev : tevent)
| TTick (d : Z)                 (* time passes *)
| TFire (id : nat)              (* a timer whose time has come calls add *)
| TDb (b : bool)                (* db_set *)
| TExec (raises : bool).        (* the next event is executed *)
Definition tstep (s : timers) (l : tlabel) : timers :=
  match l with
  | TNamed name start ev => add_named_timer name start ev s
  | TTimer start ev => add_timer start ev s
  | TAdd ev => mkTs (now s) (named s) (armed s) (next_id s) (waiting s ++ [ev]) (db s) (purged s)
  | TTick d => mkTs (now s + Z.max 0 d) (named s) (armed s) (next_id s) (waiting s) (db s) (purged s)
  | TFire id =>
      match find (fun t => Nat.eqb (t_id t) id) (armed s) with
      | Some t => if t_due t <=? now s then
          mkTs (now s) (named s) (filter (fun t => negb (Nat.eqb (t_id t) id)) (armed s)) (next_id s) (waiting s ++ [t_event t]) (db s) (purged s) else s
      | None => s
      end
  | TDb b => mkTs (now s) (named s) (armed s) (next_id s) (waiting s) b (purged s)
  | TExec raises =>
      match waiting s with
      | [] => s
      | ev :: q =>
          let s1 := mkTs (now s) (named s) (armed s) (next_id s) q (db s) (purged s) in
          match ev with Purge => db_purge raises s1 | Other _ => s1 end
      end
  end.
(** observer.py:185: the first statement of run *)
Definition tinit (t0 : Z) (b : bool) : timers := add_named_timer "DB_PURGE" purge_interval Purge (mkTs t0 [] [] 0 [] b []).
Definition trun (s : timers) (l : list tlabel) : timers := fold_left tstep l s.
