(** Specification of the execution of commands: what a process is, and what is meant by its running alone. *)
From Verif Require Import Base Exec_Model.
Local Open Scope Z_scope.

(** What holds for processes:
    - nobody writes more than there is room for;
    - who can write all they want does not see how much room there is;
    - an exit status is final;
    - the command is in its group as long as it has not ended; an empty group stays empty;
    - a pipe that nobody holds is not written to, and nobody gets hold of it. *)
Record process {S} (b : behaviour S) (cap : Z) : Prop := {
  p_room : forall ro re s s' o e, 0 <= ro -> 0 <= re -> b_tick b ro re s = (s', (o, e)) -> 0 <= o <= ro /\ 0 <= e <= re;
  p_fits : forall ro re s s' o e, b_tick b cap cap s = (s', (o, e)) -> o <= ro <= cap -> e <= re <= cap ->
           b_tick b ro re s = (s', (o, e));
  p_final : forall ro re s c, b_code b s = Some c -> b_code b (fst (b_tick b ro re s)) = Some c;
  p_final_term : forall s c, b_code b s = Some c -> b_code b (b_term b s) = Some c;
  p_final_kill : forall s c, b_code b s = Some c -> b_code b (b_kill b s) = Some c;
  p_group : forall s, b_code b s = None -> b_group b s = true;
  p_empty : forall ro re s, b_group b s = false -> b_group b (fst (b_tick b ro re s)) = false;
  p_out : forall ro re s, b_out b s = false -> b_out b (fst (b_tick b ro re s)) = false /\ fst (snd (b_tick b ro re s)) = 0;
  p_err : forall ro re s, b_err b s = false -> b_err b (fst (b_tick b ro re s)) = false /\ snd (snd (b_tick b ro re s)) = 0
}.

(** Nobody of the group survives SIGKILL; the status of the command is then -9. *)
Definition mortal {S} (b : behaviour S) : Prop :=
  forall s, b_group b (b_kill b s) = false /\ (b_code b s = None -> b_code b (b_kill b s) = Some (-9)).
(** Only the group holds the pipes: whoever leaves the group has closed them. *)
Definition contained {S} (b : behaviour S) : Prop :=
  forall s, b_group b s = false -> b_out b s = false /\ b_err b s = false.

(** Whoever the command leaves behind has closed the pipes. *)
Definition closes {S} (b : behaviour S) : Prop :=
  forall s c, b_code b s = Some c -> b_out b s = false /\ b_err b s = false.

(** The command running by itself, with somebody who always reads its output at once: its state after [n]
    units of time, and what it has written until then. *)
Definition alone {S} (b : behaviour S) (cap : Z) (n : nat) : S * (Z * Z) :=
  Nat.iter n (fun x => let '(s', (o, e)) := b_tick b cap cap (fst x) in (s', (fst (snd x) + o, snd (snd x) + e)))
           (b_start b, (0, 0)).
(** The command running by itself with nobody reading. *)
Definition unread {S} (b : behaviour S) (cap : Z) (n : nat) : S * (Z * Z) :=
  Nat.iter n (fun x => let '(s', (o, e)) := b_tick b (cap - fst (snd x)) (cap - snd (snd x)) (fst x) in
                       (s', (fst (snd x) + o, snd (snd x) + e)))
           (b_start b, (0, 0)).

(** second, in units *)
Definition second : Z := 100000.

(** What is returned for the exit status [c] (None: not known), and the output [o] and [e]. *)
Definition answer (codes : list Z) (output : bool) (c : option Z) (o e : Z) (r : result) : Prop :=
  let ok := exists n, c = Some n /\ In n codes in
  match r with
  | ROne a => output = false /\ length codes = 1%nat /\ (a = true <-> ok)
  | RTwo a c' => output = false /\ length codes <> 1%nat /\ (a = true <-> ok) /\ c' = c
  | RAll a o' e' c' => output = true /\ (a = true <-> ok) /\ c' = c /\ o' = Some o /\ e' = Some e
  end.
(** The output is read: to return it, or to log it (errors are logged at level 40, the rest at 10). *)
Definition is_read (level : Z) (codes : list Z) (output : bool) (c : Z) : bool :=
  output || (level <=? (if existsb (Z.eqb c) codes then 10 else 40)).

(** When commands that are executed one after the other are over at the latest: each has its timeout and 2.4 seconds. *)
Fixpoint deadlines (now : Z) (timeouts : list Z) : list Z :=
  match timeouts with
  | [] => []
  | t :: ts => let d := now + t + 240000 in d :: deadlines d ts
  end.

(** Small programs, for the examples: write [s_want] to the output, then work for [s_left] units of time and end
    with [g_exit]; [g_trap]: the status after SIGTERM (None: it is ignored); [g_daemon]: whether they have started
    a process that goes on holding the pipes, and whether it has left the group. *)
Record kind := mkK { g_exit : Z; g_trap : option Z; g_daemon : option bool }.
Record prog := mkP { s_want : Z; s_left : Z; s_code : option Z; s_daemon : bool }.
Definition p_end (c : Z) (p : prog) : prog :=
  mkP (s_want p) (s_left p) (match s_code p with Some c' => Some c' | None => Some c end) (s_daemon p).
Definition p_tick (k : kind) (ro re : Z) (p : prog) : prog * (Z * Z) :=
  match s_code p with
  | Some _ => (p, (0, 0))
  | None =>
      if 0 <? s_want p then
        let o := Z.min ro (s_want p) in (mkP (s_want p - o) (s_left p) None (s_daemon p), (o, 0))
      else if s_left p =? 1 then (p_end (g_exit k) p, (0, 0))
      else (mkP (s_want p) (s_left p - 1) None (s_daemon p), (0, 0))
  end.
(** a signal to the group reaches the other process if it is still in it *)
Definition hit (k : kind) (p : prog) : prog :=
  mkP (s_want p) (s_left p) (s_code p) (match g_daemon k with Some true => s_daemon p | _ => false end).
Definition running (p : prog) : bool := match s_code p with None => true | Some _ => false end.
Definition holds (k : kind) (p : prog) : bool := running p || match g_daemon k with None => false | Some _ => s_daemon p end.
Definition program (k : kind) (want left : Z) : behaviour prog :=
  mkB _ (mkP want left None true) (p_tick k) s_code
      (fun p => hit k (match g_trap k with None => p | Some c => p_end c p end))
      (fun p => hit k (p_end (-9) p))
      (fun p => running p || match g_daemon k with Some false => s_daemon p | _ => false end)
      (holds k) (holds k).
