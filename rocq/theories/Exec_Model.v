(** Model of the execution of a command: fail2ban/server/utils.py:148-280 (executeCmd) with wait_for (282-320)
    and action.py:1012-1042 (CommandAction.executeCmd).

    The command and all it starts are a state of some type with a behaviour: what happens in one unit of time
    given the room that is left in the pipes of its output, which exit status the command has, what the
    signals do.  Nothing else is assumed about it here.

    Simplifications:
    - the unit of time is the shortest sleep, 10 microseconds; everything but sleeping takes no time;
    - of the output only the amounts are kept;
    - a command that has not ended exists, so the status is never set to SIGKILL (220-221);
    - not-blocking reads give what is in the pipes, 0 for nothing;
    - errors of reading, and what is logged, are left out. *)
From Verif Require Import Base.
Local Open Scope Z_scope.

Record behaviour (S : Type) := mkB {
  b_start : S;
  b_tick : Z -> Z -> S -> S * (Z * Z);   (* with so much room in the pipes: the new state, what was written *)
  b_code : S -> option Z;                (* exit status of the command, once it ended *)
  b_term : S -> S;                       (* SIGTERM, SIGKILL to the group *)
  b_kill : S -> S;
  b_group : S -> bool;                   (* somebody is in the group *)
  b_out : S -> bool;                     (* somebody holds the pipe of the output, of the errors *)
  b_err : S -> bool
}.
Arguments b_start {S}. Arguments b_tick {S}. Arguments b_code {S}. Arguments b_term {S}. Arguments b_kill {S}. Arguments b_group {S}.
Arguments b_out {S}. Arguments b_err {S}.

Inductive signal := TERM | KILL.
Record world (S : Type) := mkW { w_state : S; w_now : Z; w_out : Z; w_err : Z; w_signals : list (signal * Z) }.
Arguments mkW {S}. Arguments w_state {S}. Arguments w_now {S}. Arguments w_out {S}. Arguments w_err {S}. Arguments w_signals {S}.

(** What is returned: success; with the status; with output, errors and status. *)
Inductive result := ROne (ok : bool) | RTwo (ok : bool) (code : option Z) | RAll (ok : bool) (out err : option Z) (code : option Z).
(** [Blocked]: still reading *)
Inductive outcome (S : Type) := Done (r : result) (w : world S) | Blocked (w : world S).
Arguments Done {S}. Arguments Blocked {S}.

Section Exec.
Context {S : Type} (b : behaviour S) (cap : Z).   (* the size of a pipe *)

(** one unit of time while nobody reads *)
Definition tick (w : world S) : world S :=
  let '(s, (o, e)) := b_tick b (cap - w_out w) (cap - w_err w) (w_state w) in
  mkW s (w_now w + 1) (w_out w + o) (w_err w + e) (w_signals w).
(** time.sleep *)
Definition sleep (n : Z) (w : world S) : world S := Z.iter n tick w.
Definition poll (w : world S) : option Z := b_code b (w_state w).
(** os.killpg; [None]: ProcessLookupError *)
Definition killpg (g : signal) (w : world S) : option (world S) :=
  if b_group b (w_state w) then
    Some (mkW (match g with TERM => b_term b | KILL => b_kill b end (w_state w)) (w_now w) (w_out w) (w_err w) (w_signals w ++ [(g, w_now w)]))
  else None.

(** utils.py:59-62 *)
Definition SLEEP_TIME : Z := 200000.
Definition SLEEP_INTERVAL : Z := 20000.
Definition SHORTEST_INTERVAL : Z := 1.
(** utils.py:303-320 wait_for(_popen_wait_end, timeout, DEFAULT_SHORTEST_INTERVAL) *)
Fixpoint wait_end (fuel : nat) (stm time0 : Z) (w : world S) : option Z * world S :=
  match fuel with
  | O => (None, w)
  | Datatypes.S fuel =>
      match poll w with
      | Some c => (Some c, w)
      | None =>
          if w_now w >? time0 then (None, w)
          else let stm := Z.min (stm + SHORTEST_INTERVAL) SLEEP_TIME in
               wait_end fuel stm time0 (sleep stm w)
      end
  end.
(** utils.py:194-205 *)
Definition wait (timeout : Z) (w : world S) : option Z * world S :=
  match poll w with
  | Some c => (Some c, w)
  | None => wait_end (Z.to_nat timeout + 3) 0 (w_now w + timeout) w
  end.
(** utils.py:207-221 *)
Definition time_out (kill_tree : bool) (w : world S) : option Z * world S :=
  match killpg TERM w with
  | None => (None, w)
  | Some w =>
      let w := sleep SLEEP_INTERVAL w in
      let code := poll w in
      if match code with None => true | Some _ => kill_tree end then
        match killpg KILL w with
        | None => (code, w)
        | Some w =>
            let w := sleep SLEEP_INTERVAL w in
            (match code with None => poll w | Some c => Some c end, w)
        end
      else (code, w)
  end.

(** popen.stdout.read(), popen.stderr.read(): all that comes until nobody holds the pipe; one unit of time
    with a reader at the pipe *)
Definition tick_out (w : world S) : world S :=
  let '(s, (o, e)) := b_tick b cap (cap - w_err w) (w_state w) in mkW s (w_now w + 1) o (w_err w + e) (w_signals w).
Definition tick_err (w : world S) : world S :=
  let '(s, (o, e)) := b_tick b (cap - w_out w) cap (w_state w) in mkW s (w_now w + 1) (w_out w + o) e (w_signals w).
Fixpoint read_out (fuel : nat) (n : Z) (w : world S) : option Z * world S :=
  if b_out b (w_state w) then
    match fuel with
    | O => (None, w)
    | Datatypes.S fuel => read_out fuel (n + w_out w) (tick_out w)
    end
  else (Some (n + w_out w), mkW (w_state w) (w_now w) 0 (w_err w) (w_signals w)).
Fixpoint read_err (fuel : nat) (n : Z) (w : world S) : option Z * world S :=
  if b_err b (w_state w) then
    match fuel with
    | O => (None, w)
    | Datatypes.S fuel => read_err fuel (n + w_err w) (tick_err w)
    end
  else (Some (n + w_err w), mkW (w_state w) (w_now w) (w_out w) 0 (w_signals w)).

(** logging levels *)
Definition DEBUG : Z := 10.
Definition ERROR : Z := 40.
(** utils.py:260-280 *)
Definition finish (codes : list Z) (output : bool) (code out err : option Z) (w : world S) : outcome S :=
  let ok := match code with Some c => existsb (Z.eqb c) codes | None => false end in
  Done (if output then RAll ok out err code else if Nat.eqb (length codes) 1 then ROne ok else RTwo ok code) w.
(** utils.py:229-258 and the rest; [fuel] is how long is waited for the reading *)
Definition collect (fuel : nat) (level : Z) (codes : list Z) (output : bool) (code : option Z) (w : world S) : outcome S :=
  let std_level := if match code with Some c => existsb (Z.eqb c) codes | None => false end then DEBUG else ERROR in
  if output || (level <=? std_level) then
    if match code with None => true | Some c => c <? 0 end then
      finish codes output code (Some (w_out w)) (Some (w_err w)) w
    else
      match read_out fuel 0 w with
      | (None, w) => Blocked w
      | (Some o, w) =>
          match read_err fuel 0 w with
          | (None, w) => Blocked w
          | (Some e, w) => finish codes output code (Some o) (Some e) w
          end
      end
  else finish codes output code None None w.

(** utils.py:148-280; [started]: subprocess.Popen raised no OSError *)
Definition start_world : world S := mkW (b_start b) 0 0 0 [].
Definition execute_cmd (fuel : nat) (started : bool) (level timeout : Z) (output kill_tree : bool) (codes : list Z) : outcome S :=
  if negb started then Done (if output then RAll false None None None else ROne false) start_world
  else
    let '(code, w) := wait timeout start_world in
    let '(code, w) := match code with Some _ => (code, w) | None => time_out kill_tree w end in
    collect fuel level codes output code w.

(** action.py:1012-1042 CommandAction.executeCmd; [empty]: there is no command *)
Definition action_cmd (fuel : nat) (empty started : bool) (level timeout : Z) (codes : list Z) : outcome S :=
  if empty then Done (ROne true) start_world else execute_cmd fuel started level timeout false true codes.
End Exec.

(** filter.py:614-618 in inIgnoreIPList: ret, ret_ignore = CommandAction.executeCmd(command, success_codes=(0, 1)), with the
    default timeout of 60 seconds; [Fails]: one value cannot be unpacked (TypeError) *)
Inductive ignored := Ignored (i : bool) | Fails | Hangs.
Definition ignore_cmd {S} (b : behaviour S) (cap : Z) (fuel : nat) (empty started : bool) (level : Z) : ignored :=
  match action_cmd b cap fuel empty started level 6000000 [0; 1] with
  | Done (RTwo ret code) _ => Ignored (ret && match code with Some c => c =? 0 | None => false end)
  | Done _ _ => Fails
  | Blocked _ => Hangs
  end.

(** action.py:49 and 1041: all commands of all jails are executed under one lock (_cmd_lock), so one after the other;
    of each: its timeout and what it does.  What is returned, and after which time, of those that are over. *)
Fixpoint queue {S} (cap : Z) (fuel : nat) (level : Z) (now : Z) (cs : list (behaviour S * Z)) : list (result * Z) :=
  match cs with
  | [] => []
  | (b, timeout) :: cs =>
      match action_cmd b cap fuel false true level timeout [0] with
      | Done r w => (r, now + w_now w) :: queue cap fuel level (now + w_now w) cs
      | Blocked _ => []
      end
  end.
