(** What the life cycle of a command action means, told from the trace of the calls and commands alone
    (newest first), without the action's own flags. *)
From Verif Require Import Base CmdAct_Model.

(** an operation went well: its command succeeded, there is none, or the same command has run for another family *)
Definition good (h : how) : bool := match h with Ran _ ok => ok | Nothing => true | Shared _ => true | NoCmd => false end.

(** The firewall side of a family: whether its environment was set up and not torn down since. *)
Fixpoint up (f : fam) (tr : list event) : bool :=
  match tr with
  | [] => false
  | Call AStop :: _ => false
  | GaveUp g :: r => if eqb g f then false else up f r
  | Did k g h :: r =>
      if eqb g f then
        match k with
        | KStart | KBan | KReban => good h || up f r
        | KStop => false
        | KRepair => match h with NoCmd => up f r | _ => good h end
        | _ => up f r
        end
      else up f r
  | _ :: r => up f r
  end.
(** whether a ban was made in it since it was set up, and no flush since. *)
Fixpoint filled (f : fam) (tr : list event) : bool :=
  match tr with
  | [] => false
  | Call AStop :: _ => false
  | GaveUp g :: r => if eqb g f then false else filled f r
  | Did k g h :: r =>
      if eqb g f then
        match k with
        | KBan | KReban => good h || filled f r
        | KStart | KFlush => negb (good h) && filled f r
        | KStop => false
        | KRepair => match h with NoCmd => filled f r | _ => false end
        | _ => filled f r
        end
      else filled f r
  | _ :: r => filled f r
  end.
(** the call an event belongs to, and what happened before that call *)
Fixpoint call_of (tr : list event) : option (api * list event) :=
  match tr with
  | [] => None
  | Call a :: r => Some (a, r)
  | _ :: r => call_of r
  end.
Definition during (tr : list event) (P : api -> list event -> Prop) : Prop :=
  exists a past, call_of tr = Some (a, past) /\ P a past.

(** the configuration in force, [c] at the beginning *)
Fixpoint cfg_at (c : cfg) (tr : list event) : cfg :=
  match tr with
  | [] => c
  | Call (ASet c') :: _ => c'
  | _ :: r => cfg_at c r
  end.

(** A command common to several families is run once for them.  That it ran for family [g] as operation [k] is
    void as soon as [g] failed or had nothing to do at that operation, was stopped (for a start) or started (for a
    stop), was given up (for a start), or the configuration was changed. *)
Definition voids (k : kind) (g : fam) (e : event) : bool :=
  match e with
  | Call (ASet _) => true
  | Call _ => false
  | Did k' f h =>
      eqb f g &&
      match k', k with
      | KStart, KStart | KStop, KStop | KFlush, KFlush | KReload, KReload => match h with Ran _ false | Nothing => true | _ => false end
      | KStop, KStart | KStart, KStop => good h
      | _, _ => false
      end
  | GaveUp f => match k with KStart => eqb f g | _ => false end
  end.
Definition voids_some (k : kind) (e : event) : bool :=
  match e with Call (ASet _) => true | Call _ => false | Did _ f _ => voids k f e | GaveUp f => voids k f e end.
(** [g] has [e] behind it in [tr] and it is not void since *)
Definition valid_since (k : kind) (g : fam) (e : event) (tr : list event) : Prop :=
  exists r1 r2, tr = r1 ++ e :: r2 /\ forallb (fun e => negb (voids k g e)) r1 = true.
Definition sharing (k : kind) (f : fam) (h : how) (tr : list event) : Prop :=
  match h with
  (* skipped: another family has that command behind it, and for some family it really ran *)
  | Shared cmd => (exists g, g <> f /\ (valid_since k g (Did k g (Ran cmd true)) tr \/ valid_since k g (Did k g (Shared cmd)) tr))
                  /\ exists x, valid_since k x (Did k x (Ran cmd true)) tr
  (* run: it has not run for another family, or anything was void since *)
  | Ran cmd _ => forall x r1 r2, x <> f -> tr = r1 ++ Did k x (Ran cmd true) :: r2 -> existsb (voids_some k) r1 = true
  | _ => True
  end.

(** the command is the one that the configuration has for the operation and the family *)
Definition configured (cf : cfg) (k : kind) (f : fam) (h : how) : Prop :=
  match h with
  | Ran cmd _ => c_cmd cf k f = Some cmd /\ cmd <> ""%string
  | Shared cmd => c_cmd cf k f = Some cmd /\ cmd <> ""%string /\ In k [KStart; KStop; KFlush; KReload]
  | Nothing => c_cmd cf k f = Some ""%string
  | NoCmd => c_cmd cf k f = None
  end.
(** the calls in which a broken environment may be repaired *)
Definition may_repair (cf : cfg) (a : api) : Prop :=
  match a with
  | ABan _ | AReban _ | AProlong _ => True
  | AUnban _ => c_repair_on_unban cf = true
  | ACheck repair => repair = true
  | _ => False
  end.
(** what may come just before a command about a ticket: the call, the start on demand, a good check after the first
    failed try, or that try itself if there is nothing to check; for an unban the environment may have been removed *)
Definition ready (cf : cfg) (k : kind) (f : fam) (tr : list event) : Prop :=
  match tr with
  | Call _ :: _ => True
  | Did KStart g h :: Call _ :: _ => g = f /\ good h = true
  | Did KCheck g (Ran _ true) :: _ => g = f
  | Did KStop g _ :: _ => g = f /\ k = KUnban
  | Did k' g (Ran _ false) :: Call _ :: _ | Did k' g (Ran _ false) :: Did KStart _ _ :: Call _ :: _ =>
      k' = k /\ g = f /\ (c_check cf = false \/ c_cmd cf KCheck f = Some ""%string)
  | _ => False
  end.
Definition check_failed (f : fam) (tr : list event) : Prop := exists c r, tr = Did KCheck f (Ran c false) :: r.

(** When may a command be run: [tr] is everything before it, [cf] the configuration. *)
Definition allowed (on_demand : bool) (families : list fam) (cf : cfg) (e : event) (tr : list event) : Prop :=
  match e with
  | Did k f h =>
      configured cf k f h
      /\ match k with
      (* the environment is set up: when the jail starts; if it is not up, on demand before a ban; or to repair it *)
      | KStart => (on_demand = false /\ during tr (fun a past => a = AStart /\ In f families)
                   \/ up f tr = false /\ on_demand = true /\ (exists past, tr = Call (ABan f) :: past \/ tr = Call (AReban f) :: past)
                   \/ up f tr = false /\ during tr (fun a past => may_repair cf a /\ (on_demand = true -> a <> AUnban f))
                      /\ c_cmd cf KRepair f = Some ""%string /\ (check_failed f tr \/ exists h r, tr = Did KStop f h :: r /\ check_failed f r))
                  /\ sharing KStart f h tr
      (* torn down are at the stop the families that are up; otherwise only after a failed check *)
      | KStop => (during tr (fun a past => a = AStop /\ up f past = true)
                  \/ check_failed f tr /\ during tr (fun a past => may_repair cf a) /\ c_cmd cf KRepair f = Some ""%string)
                 /\ sharing KStop f h tr
      | KRepair => check_failed f tr /\ during tr (fun a past => may_repair cf a)
      (* bans are made for a ban only, on demand in a prepared environment only *)
      | KBan => during tr (fun a past => a = ABan f \/ a = AReban f /\ c_reban cf = false) /\ (on_demand = true -> up f tr = true) /\ ready cf k f tr
      | KReban => during tr (fun a past => a = AReban f /\ c_reban cf = true) /\ (on_demand = true -> up f tr = true) /\ ready cf k f tr
      (* unbans only if something was banned *)
      | KUnban => during tr (fun a past => a = AUnban f /\ filled f past = true) /\ ready cf k f tr
      | KProlong => during tr (fun a past => a = AProlong f) /\ ready cf k f tr
      (* a flush only if something was banned, and not flushed, since the family was set up *)
      | KFlush => during tr (fun a past => a = AFlush) /\ up f tr = true /\ filled f tr = true /\ sharing KFlush f h tr
      | KReload => during tr (fun a past => a = AReload) /\ up f tr = true /\ sharing KReload f h tr
      (* checks are asked for while the family is up, or follow a failed command of it, or its repair *)
      | KCheck => c_check cf = true
                  /\ (during tr (fun a past => exists b, a = ACheck b) /\ up f tr = true
                      \/ (exists k c r, tr = Did k f (Ran c false) :: r /\ (k = KBan \/ k = KReban \/ k = KUnban \/ k = KProlong))
                      \/ (exists k h r, tr = Did k f h :: r /\ good h = true /\ (k = KStart \/ k = KRepair)))
      end
  (* a family is given up if its repair or the check after it failed *)
  | GaveUp f => during tr (fun a past => exists b, a = ACheck b) /\ exists k c r, tr = Did k f (Ran c false) :: r /\ (k = KCheck \/ k = KRepair)
  | Call a => True
  end.
(** every event was allowed when it happened *)
Fixpoint lawful (on_demand : bool) (families : list fam) (c : cfg) (tr : list event) : Prop :=
  match tr with [] => True | e :: r => allowed on_demand families (cfg_at c r) e r /\ lawful on_demand families c r end.

(** the number of repairs of a broken environment: failed checks with which the call went on with that family *)
Fixpoint repairs (tr : list event) : Z :=
  match tr with
  | [] => 0
  | e :: r => match e, r with
              | Did (KStart | KStop | KRepair) f _, Did KCheck g (Ran _ false) :: _ => if eqb f g then 1 else 0
              | _, _ => 0
              end + repairs r
  end.

(** the number of times a command was tried since a call *)
Fixpoint tries (k : kind) (f : fam) (tr : list event) : nat :=
  match tr with
  | Did k' g _ :: r => (if kind_eqb k k' && eqb g f then 1 else 0)%nat + tries k f r
  | GaveUp _ :: r => tries k f r
  | _ => 0%nat
  end.
(** the commands that ran since the last call *)
Fixpoint since_call (tr : list event) : list event :=
  match tr with
  | Call _ :: _ | [] => []
  | e :: r => e :: since_call r
  end.
