(** Specification vocabulary for the database, in terms of the history of calls. *)
From Verif Require Import Base Ticket_Model Database_Model.

(** [j] was added since the last start of the server and not deleted since. *)
Fixpoint enabled (j : string) (ops : list db_op) (cur : bool) : bool :=
  match ops with
  | [] => cur
  | DAddJail j' :: r => enabled j r (if eqb j j' then true else cur)
  | DDelJail j' :: r => enabled j r (if eqb j j' then false else cur)
  | DStart :: r => enabled j r false
  | _ :: r => enabled j r cur
  end.

(** Bans of [j] are stored only while [j] is enabled. *)
Fixpoint well_used (j : string) (ops : list db_op) (cur : bool) : Prop :=
  match ops with
  | [] => True
  | o :: r => (match o with DAddBan j' _ _ => if eqb j j' then cur = true else True | _ => True end)
              /\ well_used j r (enabled j [o] cur)
  end.

(** The last ban stored for [ip] in jail [j] and not deleted since: the ticket and the default
    ban time of the jail at that time. *)
Fixpoint last_ban (j ip : string) (ops : list db_op) (cur : option (Z * ticket)) : option (Z * ticket) :=
  match ops with
  | [] => cur
  | DAddBan j' bt t :: r => last_ban j ip r (if eqb j j' && eqb ip (t_id t) then Some (bt, t) else cur)
  | DDelBan j' ips :: r =>
      last_ban j ip r (if eqb j j' && (match ips with [] => true | _ => inb ip ips end) then None else cur)
  | _ :: r => last_ban j ip r cur
  end.

(** All bans of [ip] in [j] ever stored and neither deleted nor outdated at a purge since, in the
    order they were stored; [age] is the purge age. *)
Fixpoint all_bans (age : Z) (j ip : string) (ops : list db_op) (cur : list (Z * ticket)) : list (Z * ticket) :=
  match ops with
  | [] => cur
  | DAddBan j' bt t :: r => all_bans age j ip r (if eqb j j' && eqb ip (t_id t) then cur ++ [(bt, t)] else cur)
  | DDelBan j' ips :: r =>
      all_bans age j ip r (if eqb j j' && (match ips with [] => true | _ => inb ip ips end) then [] else cur)
  | DPurge now :: r => all_bans age j ip r (filter (fun e => now - age <=? t_time (snd e)) cur)
  | _ :: r => all_bans age j ip r cur
  end.

(** Purges happen not after [now]; ban times are -1 (permanent) or positive. *)
Definition sane_history (now : Z) (ops : list db_op) : Prop :=
  Forall (fun o => match o with
                   | DPurge t => t <= now
                   | DAddBan _ bt t => get_bantime bt t = -1 \/ 0 < get_bantime bt t
                   | _ => True end) ops.
Definition sane_settings (cfg : settings) : Prop := 0 <= purgeAge cfg /\ 1 <= outDated cfg.

(** The ban time that counts after a restart: never more than the jail's present maximum. *)
Definition the_limit (js : jset) : option Z :=
  if js_increment js then
    match js_maxtime js with Some m => if 0 <? m then Some m else None | None => None end
  else if 0 <? js_bantime js then Some (js_bantime js) else None.
Definition limited (js : jset) (bt : Z) : Z :=
  match the_limit js with
  | Some m => if bt =? -1 then m else Z.min bt m
  | None => bt
  end.
(** A jail whose ban time is permanent or positive. *)
Definition sane_jail (js : jset) : Prop := js_increment js = true \/ js_bantime js = -1 \/ 0 < js_bantime js.

(** A ban of length [bt] that began at [time] is running at [now]. *)
Definition running (now time bt : Z) : Prop := bt = -1 \/ now < time + bt.

(** The ticket [tk] restores the stored ban [e]: same ID, beginning, counters and (the last)
    matches, the ban time within the present limit, marked as restored. *)
Definition restores (cfg : settings) (js : jset) (e : Z * ticket) (tk : ticket) : Prop :=
  t_id tk = t_id (snd e) /\ t_time tk = t_time (snd e)
  /\ t_bantime tk = Some (limited js (get_bantime (fst e) (snd e)))
  /\ t_bancount tk = Z.max 0 (t_bancount (snd e)) /\ t_failures tk = t_failures (snd e)
  /\ get_matches tk = last_n (Nat.min (js_maxm js) (maxMatches cfg)) (get_matches (snd e))
  /\ t_restored tk = true.

(** Logs: what was noted last for a file of a jail, unless the jail was removed. *)
Fixpoint last_log (j path : string) (ops : list db_op) (cur : option (option string * Z)) : option (option string * Z) :=
  match ops with
  | [] => cur
  | DUpdLog j' p pos md5 :: r =>
      last_log j path r (if eqb j j' && eqb path p then Some (md5, pos) else cur)
  | DAddLog j' p pos md5 :: r =>
      last_log j path r
        (if eqb j j' && eqb path p then
           match cur with
           | Some (Some _, _) => cur
           | _ => if negb (pos =? 0) || match md5 with Some _ => true | None => false end
                  then Some (md5, pos) else cur
           end
         else cur)
  | _ :: r => last_log j path r cur
  end.
(** Logs of [j] are used, and the database is purged, only while [j] is enabled. *)
Fixpoint logs_used (j : string) (ops : list db_op) (cur : bool) : Prop :=
  match ops with
  | [] => True
  | o :: r => (match o with
               | DAddLog j' _ _ _ | DUpdLog j' _ _ _ => if eqb j j' then cur = true else True
               | DPurge _ => cur = true
               | _ => True end)
              /\ logs_used j r (enabled j [o] cur)
  end.

(** The call deletes bans by hand. *)
Definition is_del (o : db_op) : bool := match o with DDelBan _ _ => true | _ => false end.
(** The sum. *)
Fixpoint zsum (l : list Z) : Z := match l with [] => 0 | x :: r => x + zsum r end.
