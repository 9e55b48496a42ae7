(** Specification vocabulary for the actions of a jail.  It speaks about the calls that
    reach the actions (the trace), the list of banned IDs, and nothing else. *)
From Verif Require Import Base Ticket_Model BanManager_Model BanManager_Spec Actions_Model.

Definition banned_ids (s : acts) : list string := ban_list (as_bm s).
Definition action_names (s : acts) : list string := dkeys (as_actions s).
Definition is_banned (id : string) (s : acts) : Prop := In id (banned_ids s).

(** New calls made between two states. *)
Definition new_calls (s s' : acts) (cs : list call) : Prop :=
  exists tr, as_trace s' = as_trace s ++ tr /\ map fst tr = cs.

(** The state of one ID in one firewall, as the action's calls make it: [Broken] if the
    action is asked to ban a banned ID or to unban one that is not. *)
Inductive fw := Closed | Opened | Broken.
Definition fw1 (name id : string) (st : fw) (ev : call * resp) : fw :=
  match st with
  | Broken => Broken
  | _ =>
    match ev with
    | (CBan n i, _) => if eqb n name && eqb i id then (match st with Closed => Opened | _ => Broken end) else st
    | (CUnban n i, _) => if eqb n name && eqb i id then (match st with Opened => Closed | _ => Broken end) else st
    | (CFlush n, r) => if eqb n name && negb (r_raise r) && r_true r then Closed else st
    | _ => st
    end
  end.
Definition fw_after (name id : string) (tr : trace) : fw := fold_left (fw1 name id) tr Closed.

(** No consistency check raises. *)
Definition quiet_checks (orc : oracle) : Prop := forall tr n, r_raise (orc tr (CCheck n)) = false.

(** Actions that ban restored tickets like any other, and whose bulk flush, if they have
    one, falls back to single unbans when it fails. *)
Definition plain (a : action) : Prop :=
  ac_norestored a = false /\ (ac_flush a = false \/ ac_check a = false).

(** A jail whose actions are configured but which has not run yet. *)
Definition fresh_acts (s : acts) : Prop :=
  NoDup (action_names s) /\ fresh_bm (as_bm s) /\ as_trace s = [].

(** An action did its part of a flush in bulk: it was asked to flush and agreed, or it
    raised and has a consistency check to rely on. *)
Definition in_bulk (tr : trace) (n : string) (a : action) : bool :=
  ac_flush a &&
  existsb (fun ev => match fst ev with
                     | CFlush m => eqb m n && (if r_raise (snd ev) then ac_check a else r_true (snd ev))
                     | _ => false
                     end) tr.

(** The same action, apart from its ban epoch. *)
Definition same_action (a b : action) : Prop := with_acepoch None a = with_acepoch None b.

(** Main loop: consecutive rounds; [None] if one of them raised. *)
Fixpoint rounds (orc : oracle) (rs : list (bool * Z)) (cnt : nat) (s : acts)
  : option (acts * nat * list (nat * option nat)) :=
  match rs with
  | [] => Some (s, cnt, [])
  | (ready, now) :: r =>
      match main_round orc ready now cnt s with
      | (_, None) => None
      | (s, Some (cnt, b, lim)) =>
          match rounds orc r cnt s with
          | None => None
          | Some (s, cnt, l) => Some (s, cnt, (b, lim) :: l)
          end
      end
  end.
Definition total_bans (l : list (nat * option nat)) : nat := fold_right (fun x n => (fst x + n)%nat) 0%nat l.

(** Serving failure tickets in order: a ticket whose ban is not over yet and whose ID is not
    banned adds its ID to the banned ones; any other ticket adds nothing. *)
Definition wants_ban (dflt now : Z) (ids : list string) (tk : ticket) : bool :=
  negb (overb dflt now tk) && negb (inb (t_id tk) ids).
Definition serve1 (dflt now : Z) (ids : list string) (tk : ticket) : list string :=
  if wants_ban dflt now ids tk then ids ++ [t_id tk] else ids.
Definition serve (dflt now : Z) (tks : list ticket) (ids : list string) : list string :=
  fold_left (serve1 dflt now) tks ids.

(** The actions that want a ban, in order: those that opted out skip restored tickets. *)
Definition wanting (restored : bool) (l : dict string action) : list string :=
  map fst (filter (fun kv => negb (restored && ac_norestored (snd kv))) l).

(** The ban calls that serving the tickets makes, in order. *)
Fixpoint serve_calls (dflt now : Z) (l : dict string action) (tks : list ticket) (ids : list string) : list call :=
  match tks with
  | [] => []
  | tk :: r =>
      (if wants_ban dflt now ids tk then map (fun n => CBan n (t_id tk)) (wanting (t_restored tk) l) else [])
      ++ serve_calls dflt now l r (serve1 dflt now ids tk)
  end.
Definition is_ban_call (c : call) : bool := match c with CBan _ _ => true | _ => false end.

(** The IDs an unban argument stands for: itself if it is banned, otherwise, if it is a
    subnet, every banned ID that it contains. *)
Definition hits (sub : string -> option (string -> bool)) (bans : list string) (id : string) : list string :=
  if inb id bans then [id]
  else match sub id with Some f => filter f bans | None => [] end.
Definition without (gone bans : list string) : list string := filter (fun b => negb (inb b gone)) bans.

(** Unbanning the arguments [ids] one after another: the IDs lifted, in order, and the
    arguments that lifted nothing. *)
Fixpoint lifted sub (ids bans : list string) : list string :=
  match ids with
  | [] => []
  | i :: r => hits sub bans i ++ lifted sub r (without (hits sub bans i) bans)
  end.
Fixpoint not_found sub (ids bans : list string) : list string :=
  match ids with
  | [] => []
  | i :: r => (match hits sub bans i with [] => [i] | _ => [] end)
              ++ not_found sub r (without (hits sub bans i) bans)
  end.

(** The calls it makes: the stored ban of the argument is deleted first, then every action
    is asked to unban, and so on for each ID of a subnet. *)
Definition db_calls (db : bool) (id : string) : list call := if db then [CDbDel (Some id)] else [].
Definition unban_calls1 sub (db : bool) (names bans : list string) (id : string) : list call :=
  db_calls db id ++
  (if inb id bans then map (fun n => CUnban n id) names
   else flat_map (fun i => db_calls db i ++ map (fun n => CUnban n i) names) (hits sub bans id)).
Fixpoint unban_calls sub (db : bool) (names ids bans : list string) : list call :=
  match ids with
  | [] => []
  | i :: r => unban_calls1 sub db names bans i
              ++ unban_calls sub db names r (without (hits sub bans i) bans)
  end.

(** An operation that does not shorten an active ban and happens before the end of time. *)
Definition op_regular (s : acts) (o : as_op) : Prop :=
  match o with
  | ORound _ now _ | OBanIP _ now => now <= MAX_TIME
  | OMutate id bt => no_shortening (as_bm s) (BMutate id bt)
  | OSetTime v => no_shortening (as_bm s) (BSetTime v)
  | _ => True
  end.
Fixpoint run_regular (orc : oracle) sub (s : acts) (ops : list as_op) : Prop :=
  match ops with
  | [] => True
  | o :: r => op_regular s o /\ run_regular orc sub (as_step orc sub s o) r
  end.

(** A whole reload of a jail's actions: begin, the new configuration, end. *)
Definition reload_cycle (orc : oracle) (cfg : list (string * action)) (s : acts) : acts * bool :=
  reload_end orc (fold_left (fun s c => fst (add_action (fst c) (snd c) true s)) cfg (reload_begin s)).

(** No reload of an action raises. *)
Definition quiet_reloads (orc : oracle) : Prop := forall tr n, r_raise (orc tr (CReload n)) = false.

(** The registry of actions up to their ban epochs. *)
Definition sg (l : dict string action) : list (string * action) :=
  map (fun kv => (fst kv, with_acepoch None (snd kv))) l.

(** An event that asks one of the actions [l] to flush or to check itself. *)
Definition about (l : list string) (ev : call * resp) : Prop :=
  exists n, In n l /\ (fst ev = CFlush n \/ fst ev = CCheck n).
Definition is_flush (c : call) : bool := match c with CFlush _ => true | _ => false end.

(** What an unban leaves behind. *)
Definition left_with (s s' : acts) (gone : list string) : Prop :=
  bm_list (as_bm s') = filter (fun kv => negb (inb (fst kv) gone)) (bm_list (as_bm s))
  /\ bm_time (as_bm s') = bm_time (as_bm s) /\ bm_next (as_bm s') = bm_next (as_bm s)
  /\ as_queue s' = as_queue s /\ as_db s' = as_db s /\ as_reload s' = as_reload s
  /\ sg (as_actions s') = sg (as_actions s).

(** The tickets put into the queue by a history. *)
Definition puts (ops : list as_op) : list ticket :=
  flat_map (fun o => match o with OPut t => [t] | _ => [] end) ops.

(** The actions whose environment was rebuilt after epoch [e]. *)
Definition rebuilt_since (e : Z) (l : dict string action) : list string :=
  map fst (filter (fun kv => match ac_epoch (snd kv) with Some x => e <? x | None => false end) l).
