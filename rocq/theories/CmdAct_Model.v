(** Model of the life cycle of a command action: fail2ban/server/action.py, CommandAction.
    The commands are the texts that the interpolation gives for an operation and a family (its own model
    is Tags_Model); [None] is the ValueError of the interpolation.  The outcome of the i-th executed command
    is given by an oracle.  Executed commands are written to a trace, newest first. *)
From Verif Require Import Base.

Definition fam := string.
Inductive kind := KStart | KStop | KBan | KReban | KUnban | KProlong | KFlush | KReload | KCheck | KRepair.
Definition kind_eqb (a b : kind) : bool :=
  match a, b with
  | KStart, KStart | KStop, KStop | KBan, KBan | KReban, KReban | KUnban, KUnban | KProlong, KProlong
  | KFlush, KFlush | KReload, KReload | KCheck, KCheck | KRepair, KRepair => true
  | _, _ => false
  end.
(** what a configuration says *)
Record cfg := mkCfg {
  c_cmd : kind -> fam -> option string;  (* action.py:406-415 _getOperation; 997 replaceTag *)
  c_check : bool;                        (* actioncheck is not empty *)
  c_reban : bool;                        (* actionreban is not empty *)
  c_repair_on_unban : bool }.
(** the calls; [ASet] is any change of the parameters (action.py:357-383) *)
Inductive api := AStart | ABan (f : fam) | AReban (f : fam) | AProlong (f : fam) | AUnban (f : fam) | AFlush | AStop | AReload | ACheck (repair : bool) | ASet (c : cfg).
Inductive how := Ran (cmd : string) (ok : bool) | Nothing | Shared (cmd : string) | NoCmd.
Inductive event := Call (a : api) | Did (k : kind) (f : fam) (h : how) | GaveUp (f : fam).
(** [Raised]: RuntimeError or ValueError; [Broken]: consistencyCheck returned False *)
Inductive result := Done | Raised | Broken.

Record st := mkSt {
  s_cfg : cfg;
  s_started : dict fam Z;                (* __started: bit 1 started, bit 2 contains items *)
  s_exec : kind -> dict fam string;      (* __substCache[('__eOpCmd', tag)] *)
  s_epoch : Z;                           (* banEpoch *)
  s_n : nat;                             (* number of commands executed *)
  s_trace : list event }.

Section Action.
Context (out : nat -> bool) (on_demand : bool) (families : list fam).

Definition log (e : event) (s : st) : st := mkSt (s_cfg s) (s_started s) (s_exec s) (s_epoch s) (s_n s) (e :: s_trace s).
Definition set_started (f : fam) (v : Z) (s : st) : st := mkSt (s_cfg s) (dset f v (s_started s)) (s_exec s) (s_epoch s) (s_n s) (s_trace s).
Definition put_started (d : dict fam Z) (s : st) : st := mkSt (s_cfg s) d (s_exec s) (s_epoch s) (s_n s) (s_trace s).
Definition put_exec (k : kind) (d : dict fam string) (s : st) : st :=
  mkSt (s_cfg s) (s_started s) (fun k' => if kind_eqb k' k then d else s_exec s k') (s_epoch s) (s_n s) (s_trace s).
Definition started (s : st) (f : fam) : Z := match dget f (s_started s) with Some v => v | None => 0 end.

(** action.py:1013-1040 executeCmd *)
Definition execute (k : kind) (f : fam) (cmd : string) (s : st) : st * bool :=
  if eqb cmd ""%string then (log (Did k f Nothing) s, true)
  else let ok := out (s_n s) in
       (log (Did k f (Ran cmd ok)) (mkSt (s_cfg s) (s_started s) (s_exec s) (s_epoch s) (S (s_n s)) (s_trace s)), ok).

(** action.py:417-441 _operationExecuted; deleting a family deletes all with the same command *)
Definition op_set (k : kind) (f : fam) (cmd : string) (s : st) : st := put_exec k (dset f cmd (s_exec s k)) s.
Definition op_del (k : kind) (f : fam) (s : st) : st :=
  match dget f (s_exec s k) with
  | None => s
  | Some cmd => put_exec k (filter (fun kv => negb (eqb (snd kv) cmd)) (ddel f (s_exec s k))) s
  end.
Definition op_others (k : kind) (f : fam) (s : st) : list string := map snd (filter (fun kv => negb (eqb (fst kv) f)) (s_exec s k)).

(** action.py:443-480 _executeOperation *)
Definition exec_one (k : kind) (after : fam -> bool -> st -> st) (f : fam) (s : st) : st * bool :=
  match c_cmd (s_cfg s) k f with
  | None => (log (Did k f NoCmd) s, false)
  | Some cmd =>
      let '(s, ret) :=
        if eqb cmd ""%string then (log (Did k f Nothing) s, true)
        else if inb cmd (op_others k f s) then (log (Did k f (Shared cmd)) s, true)
        else execute k f cmd s in
      let s := after f ret s in
      (if ret && negb (eqb cmd ""%string) then op_set k f cmd s else op_del k f s, ret)
  end.
Fixpoint exec_all (k : kind) (after : fam -> bool -> st -> st) (fs : list fam) (s : st) : st * bool :=
  match fs with
  | [] => (s, true)
  | f :: r => let '(s, a) := exec_one k after f s in let '(s, b) := exec_all k after r s in (s, a && b)
  end.
Definition exec_operation (k : kind) (fs : list fam) (after : fam -> bool -> st -> st) (s : st) : st * result :=
  let fs := match fs with [] => map fst (filter (fun kv => negb (snd kv =? 0)) (s_started s)) | _ => fs end in
  let '(s, ok) := exec_all k after fs s in (s, if ok then Done else Raised).

(** action.py:529-547 _start *)
Definition after_start (f : fam) (ret : bool) (s : st) : st := if ret then set_started f 1 (op_del KStop f s) else s.
Definition do_start (family : option fam) (force : bool) (s : st) : st * result :=
  if negb force && (on_demand || match family with Some f => negb (started s f =? 0) | None => false end) then (s, Done)
  else exec_operation KStart (match family with Some f => [f] | None => families end) after_start s.
(** action.py:650-671 _stop *)
Definition after_stop (f : fam) (ret : bool) (s : st) : st := if ret then op_del KStart f s else s.
Definition do_stop (family : option fam) (s : st) : st * result :=
  match family with
  | None =>
      match map fst (filter (fun kv => negb (snd kv =? 0)) (s_started s)) with
      | [] => (s, Done)
      | fs => exec_operation KStop fs after_stop (put_started [] s)
      end
  | Some f =>
      match dget f (s_started s) with
      | None => (s, Done)
      | Some v => exec_operation KStop [f] after_stop (set_started f (Z.land v 0) s)
      end
  end.

(** action.py:909-947 _invariantCheck; [before]: beforeRepair is not given or true; [None]: an error was raised *)
Definition invariant_check (f : fam) (before force : bool) (s : st) : st * option Z :=
  if negb force && negb (dmem f (s_started s)) then (s, Some 1)
  else match c_cmd (s_cfg s) KCheck f with
  | None => (log (Did KCheck f NoCmd) s, None)
  | Some check =>
      let '(s, ok) := if eqb check ""%string then (s, true) else execute KCheck f check s in
      if ok then (s, Some 1)
      else if negb before then (s, Some (-1))
      else
        let s := mkSt (s_cfg s) (s_started s) (s_exec s) (s_epoch s + 1) (s_n s) (s_trace s) in
        match c_cmd (s_cfg s) KRepair f with
        | None => (log (Did KRepair f NoCmd) s, None)
        | Some repair =>
            let again (s : st) : st * option Z :=
              if started s f =? 0 then (s, Some 1)
              else let '(s, ok) := execute KCheck f check s in (s, Some (if ok then 1 else 0)) in
            if eqb repair ""%string then
              let '(s, _) := do_stop (Some f) s in
              match do_start (Some f) (force || negb on_demand) s with
              | (s, Done) => again s
              | (s, _) => (s, None)
              end
            else
              let '(s, ok) := execute KRepair f repair s in
              if ok then again (set_started f 1 s) else (set_started f 0 s, Some 0)
        end
  end.
(** action.py:949-1010 _processCmd; [None]: an error was raised *)
Definition attempt (k : kind) (f : fam) (s : st) : st * option bool :=
  match c_cmd (s_cfg s) k f with
  | None => (log (Did k f NoCmd) s, None)
  | Some cmd => let '(s, ok) := execute k f cmd s in (s, Some ok)
  end.
Definition is_unban (k : kind) : bool := match k with KUnban => true | _ => false end.
Definition process_cmd (k : kind) (f : fam) (s : st) : st * option bool :=
  match attempt k f s with
  | (s, Some false) =>
      if c_check (s_cfg s) then
        match invariant_check f (negb (is_unban k) || c_repair_on_unban (s_cfg s)) (negb (is_unban k)) s with
        | (s, None) => (s, None)
        | (s, Some c) => if c =? 1 then attempt k f s else (s, Some false)
        end
      else attempt k f s
  | r => r
  end.
Definition outcome (r : st * option bool) : st * result := let '(s, o) := r in (s, match o with Some true => Done | _ => Raised end).

(** action.py:549-569 ban, 608-621 reban *)
Definition do_ban (k : kind) (f : fam) (s : st) : st * result :=
  let '(s, r) := if on_demand && (started s f =? 0) then do_start (Some f) true s else (s, Done) in
  match r with
  | Done =>
      match process_cmd k f s with
      | (s, Some true) => (set_started f (Z.lor (started s f) 3) s, Done)
      | (s, _) => (s, Raised)
      end
  | _ => (s, r)
  end.
(** action.py:623-640 flush *)
Definition after_flush (f : fam) (ret : bool) (s : st) : st :=
  if ret && negb (started s f =? 0) then set_started f (Z.land (started s f) (Z.lnot 2)) s else s.
Definition do_flush (s : st) : st * result :=
  match map fst (filter (fun kv => Z.land (snd kv) 3 =? 3) (s_started s)) with
  | [] => (s, Done)
  | fs => exec_operation KFlush fs after_flush s
  end.
(** action.py:686-698 consistencyCheck, over a copy of the items *)
Fixpoint check_all (repair : bool) (items : list (fam * Z)) (s : st) : st * result :=
  match items with
  | [] => (s, Done)
  | (f, v) :: r =>
      if v =? 0 then check_all repair r s
      else match invariant_check f repair true s with
           | (s, None) => (s, Raised)
           | (s, Some c) =>
               if c =? 0
               then match check_all repair r (op_del KStart f (set_started f 0 (log (GaveUp f) s))) with
                    | (s, Done) => (s, Broken)
                    | x => x
                    end
               else check_all repair r s
           end
  end.
Definition step (a : api) (s : st) : st * result :=
  let s := log (Call a) s in
  match a with
  | AStart => do_start None false s
  | ABan f => do_ban KBan f s
  | AReban f => do_ban (if c_reban (s_cfg s) then KReban else KBan) f s
  | AProlong f => outcome (process_cmd KProlong f s)
  | AUnban f => if Z.land (started s f) 2 =? 0 then (s, Done) else outcome (process_cmd KUnban f s)
  | AFlush => do_flush s
  | AStop => do_stop None s
  | AReload => exec_operation KReload [] (fun _ _ s => s) s
  | ACheck repair => if c_check (s_cfg s) then check_all repair (s_started s) s else (s, Done)
  | ASet c => (mkSt c (s_started s) (fun _ => []) (s_epoch s) (s_n s) (s_trace s), Done)
  end.
Fixpoint run (l : list api) (s : st) : st :=
  match l with [] => s | a :: r => run r (fst (step a s)) end.
Definition init (c : cfg) : st := mkSt c [] (fun _ => []) 0 0 [].
End Action.
