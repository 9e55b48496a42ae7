(** Model of fail2ban/server/database.py and of Jail.restoreCurrentBans (jail.py:275-315).

    Every method decorated with commitandrollback (database.py:71-79) is one step: it holds the
    lock and its statements are one SQLite transaction.  SQLite itself is trusted.
    Simplifications: times, ban times and counters are integers (int(round()) of
    database.py:598 is the identity); of the JSON data of a ban the keys 'failures' and
    'matches' are kept and JSON is taken to be faithful; jails are their names (the cache of
    merged bans is keyed by the jail object). *)
From Verif Require Import Base Ticket_Model.

(** A row of the tables bans and bips (database.py:138-161). *)
Record row := mkRow {
  r_jail    : string;
  r_ip      : string;
  r_time    : Z;                     (* timeofban *)
  r_bt      : Z;                     (* bantime *)
  r_count   : Z;                     (* bancount *)
  r_fail    : Z;                     (* data['failures'] *)
  r_matches : option (list string)   (* data['matches'] *)
}.

(** A merged ticket of getBansMerged: ID, time, failures, matches. *)
Record merged := mkMerged { m_ip : string; m_time : Z; m_fail : Z; m_matches : list string }.

Record db := mkDb {
  db_jails : dict string bool;                          (* jails: name -> enabled *)
  db_logs  : dict (string * string) (option string * Z);(* logs: (jail, path) -> first line hash, position *)
  db_bans  : list row;                                  (* bans *)
  db_bips  : dict (string * string) row;                (* bips: (ip, jail) -> row *)
  db_cache : dict (option string * option string) (list merged)  (* _bansMergedCache: (ip, jail) *)
}.
Definition db_init : db := mkDb [] [] [] [] [].

Definition with_jails v d := mkDb v (db_logs d) (db_bans d) (db_bips d) (db_cache d).
Definition with_logs v d := mkDb (db_jails d) v (db_bans d) (db_bips d) (db_cache d).
Definition with_bans v d := mkDb (db_jails d) (db_logs d) v (db_bips d) (db_cache d).
Definition with_bips v d := mkDb (db_jails d) (db_logs d) (db_bans d) v (db_cache d).
Definition with_cache v d := mkDb (db_jails d) (db_logs d) (db_bans d) (db_bips d) v.

(** The settings of the database object (database.py:166-172). *)
Record settings := mkSet {
  maxMatches : nat;
  purgeAge   : Z;
  outDated   : Z                     (* _outDatedFactor *)
}.

(** ** Jails *)

(** database.py:395-410 *)
Definition add_jail (j : string) (d : db) : db := with_jails (dset j true (db_jails d)) d.
(** database.py:412-423 *)
Definition del_jail (j : string) (d : db) : db :=
  if dmem j (db_jails d) then with_jails (dset j false (db_jails d)) d else d.
(** database.py:425-430 *)
Definition del_all_jails (d : db) : db := with_jails (map (fun kv => (fst kv, false)) (db_jails d)) d.

(** ** Logs *)

(** database.py:469-486; [false]: IntegrityError of the foreign key *)
Definition add_log (j path : string) (pos : Z) (md5 : option string) (d : db) : db * option Z * bool :=
  let '(first, last) := match dget (j, path) (db_logs d) with
                        | Some (f, p) => (f, Some p)
                        | None => (None, None)
                        end in
  let answer := match md5 with
                | Some _ => if eqb md5 first then last else None
                | None => last
                end in
  match first with
  | None =>
      if negb (pos =? 0) || (match md5 with Some _ => true | None => false end) then
        if dmem j (db_jails d) then (with_logs (dset (j, path) (md5, pos) (db_logs d)) d, answer, true)
        else (d, None, false)
      else (d, answer, true)
  | Some _ => (d, answer, true)
  end.

(** database.py:525-533 *)
Definition update_log (j path : string) (pos : Z) (md5 : option string) (d : db) : db * bool :=
  if dmem (j, path) (db_logs d) || dmem j (db_jails d)
  then (with_logs (dset (j, path) (md5, pos) (db_logs d)) d, true)
  else (d, false).

(** ** Bans *)

(** database.py:587-595: the matches that are stored *)
Definition stored_matches (max : nat) (m : option (list string)) : option (list string) :=
  match max with
  | O => match m with Some (_ :: _) => None | _ => m end
  | _ => match m with
         | Some l => if Nat.ltb max (length l) then Some (last_n max l) else m
         | None => None
         end
  end.

(** database.py:566-603 addBan(jail, ticket); [bt] is jail.actions.getBanTime() *)
Definition add_ban (cfg : settings) (j : string) (bt : Z) (t : ticket) (d : db) : db * bool :=
  let d := with_cache (ddel (Some (t_id t), None) (ddel (Some (t_id t), Some j) (db_cache d))) d in
  let r := mkRow j (t_id t) (t_time t) (get_bantime bt t) (t_bancount t) (t_failures t)
                 (stored_matches (maxMatches cfg) (t_matches t)) in
  if dmem j (db_jails d)
  then (with_bips (dset (t_id t, j) r (db_bips d)) (with_bans (db_bans d ++ [r]) d), true)
  else (d, false).

(** database.py:605-629 delBan(jail, ip, ...); no ip: the whole jail *)
Definition del_ban (j : string) (ips : list string) (d : db) : db :=
  match ips with
  | [] => with_bans (filter (fun r => negb (eqb (r_jail r) j)) (db_bans d))
            (with_bips (filter (fun kv => negb (eqb (snd (fst kv)) j)) (db_bips d)) d)
  | _ => fold_left (fun d ip =>
           with_bans (filter (fun r => negb (eqb (r_jail r) j && eqb (r_ip r) ip)) (db_bans d))
             (with_bips (filter (fun kv => negb (eqb (snd (fst kv)) j && eqb (fst (fst kv)) ip)) (db_bips d)) d)) ips d
  end.

(** ORDER BY: a stable insertion sort. *)
Fixpoint insert_by {A} (le : A -> A -> bool) (x : A) (l : list A) : list A :=
  match l with
  | [] => [x]
  | y :: r => if le x y then x :: l else y :: insert_by le x r
  end.
Definition sort_by {A} (le : A -> A -> bool) (l : list A) : list A := fold_right (insert_by le) [] l.

(** database.py:645: ip, then the newest first *)
Definition ban_order (a b : row) : bool :=
  String.ltb (r_ip a) (r_ip b) || (eqb (r_ip a) (r_ip b) && (r_time b <=? r_time a)).

Definition opt_is {A} {EA : EqB A} (o : option A) (x : A) : bool := match o with None => true | Some y => eqb y x end.

(** database.py:631-648 *)
Definition get_bans (jail : option string) (bantime : option Z) (ip : option string) (now : Z) (d : db) : list row :=
  sort_by ban_order
    (filter (fun r => opt_is jail (r_jail r)
               && match bantime with Some b => if b >=? 0 then r_time r >? now - b else true | None => true end
               && opt_is ip (r_ip r)) (db_bans d)).

(** database.py:707-741: merging; [cur] is the group in work (ID, time of the last row, failures, matches) *)
Fixpoint merge_rows (max : nat) (rows : list row) (cur : option merged) : list merged :=
  match rows with
  | [] => match cur with Some m => [m] | None => [] end
  | r :: rest =>
      let m := match r_matches r with Some l => l | None => [] end in
      let grow (g : merged) :=
        let maxadd := (max - length (m_matches g))%nat in
        mkMerged (r_ip r) (r_time r) (m_fail g + r_fail r)
          (if Nat.ltb 0 maxadd
           then (if Nat.leb (length m) maxadd then m else last_n maxadd m) ++ m_matches g
           else m_matches g) in
      let empty := mkMerged (r_ip r) (r_time r) 0 [] in
      match cur with
      | Some g => if eqb (m_ip g) (r_ip r) then merge_rows max rest (Some (grow g))
                  else g :: merge_rows max rest (Some (grow empty))
      | None => merge_rows max rest (Some (grow empty))
      end
  end.

(** database.py:676-745; the caller with an ip takes the last (only) ticket *)
Definition get_bans_merged (cfg : settings) (ip jail : option string) (bantime : option Z) (now : Z) (d : db)
  : db * list merged :=
  let fresh := merge_rows (maxMatches cfg) (get_bans jail bantime ip now d) None in
  if match bantime with None => true | Some b => b <? 0 end then
    match dget (ip, jail) (db_cache d) with
    | Some c => (d, c)
    | None => (with_cache (dset (ip, jail) fresh (db_cache d)) d, fresh)
    end
  else (d, fresh).

(** database.py:747-768 getBan(ip, jail, overalljails): count, time, ban time.  The call without
    jail and without overalljails (bare columns of a group) is not modelled. *)
Definition get_ban (ip jail : string) (overall : bool) (d : db) : list (Z * Z * Z) :=
  if overall then
    match filter (fun kv => eqb (fst (fst kv)) ip) (db_bips d) with
    | [] => []
    | l => [(fold_right Z.add 0 (map (fun kv => r_count (snd kv)) l),
             fold_right Z.max (r_time (snd (hd (ip, jail, mkRow jail ip 0 0 0 0 None) l))) (map (fun kv => r_time (snd kv)) l),
             fold_right Z.add 0 (map (fun kv => r_bt (snd kv)) l))]
    end
  else match dget (ip, jail) (db_bips d) with
       | Some r => [(r_count r, r_time r, r_bt r)]
       | None => []
       end.

(** database.py:770-789 with a jail and without ip *)
Definition ip_order (a b : row) : bool := String.leb (r_ip a) (r_ip b).
Definition current_rows (jail : string) (forbantime : option Z) (from : Z) (d : db) : list row :=
  sort_by ip_order
    (filter (fun r => eqb (r_jail r) jail
               && ((r_time r + r_bt r >? from) || (r_bt r <=? -1))
               && match forbantime with
                  | None => true
                  | Some f => if f =? -1 then true else r_time r >? from - f
                  end) (map snd (db_bips d))).

(** database.py:825-832: correction of the ban time; [None] is no correction *)
Definition correct_bt (jailbt : Z) (correct : option Z) (bt : Z) : Z :=
  if bt =? -2 then jailbt
  else match correct with
       | Some c => if negb (c =? 0) && (c >=? 0) then (if (bt =? -1) || (bt >? c) then c else bt) else bt
       | None => bt
       end.

(** database.py:843-855: the ticket made of a row; [maxm] is the maxmatches argument *)
Definition row_ticket (maxm : nat) (bt : Z) (r : row) : ticket :=
  let m := match r_matches r with Some l => l | None => [] end in
  let t := new_ticket (r_ip r) (r_time r) m (r_fail r) in
  let t := match maxm with
           | O => set_matches [] t
           | _ => match m with
                  | [] => t
                  | _ => if Nat.ltb maxm (length m) then set_matches (last_n maxm m) t else t
                  end
           end in
  set_bancount (r_count r) false (with_bantime (Some bt) t).

(** database.py:791-861 with jail, without ip *)
Definition get_current_bans (jail : string) (jailbt : Z) (correct : option Z) (forbantime : option Z)
    (maxm : nat) (from : Z) (d : db) : list ticket :=
  flat_map (fun r =>
    if eqb (r_ip r) ""%string then []                         (* database.py:823-824 *)
    else let bt := correct_bt jailbt correct (r_bt r) in
         if negb (bt =? -1) && (r_time r + bt <=? from) then []
         else [row_ticket maxm bt r])
    (current_rows jail forbantime from d).

(** The settings of the jail that matter for restoring. *)
Record jset := mkJset {
  js_bantime   : Z;            (* actions.getBanTime() *)
  js_increment : bool;         (* bantime.increment *)
  js_maxtime   : option Z;     (* bantime.maxtime *)
  js_maxm      : nat           (* failManager.maxMatches *)
}.

(** jail.py:275-279 *)
Definition max_bantime (js : jset) : Z :=
  if js_increment js then match js_maxtime js with Some m => m | None => -1 end else js_bantime js.

(** jail.py:281-315 restoreCurrentBans(): the tickets put in the queue, in order.  [from] is the
    time of the query, [clock id] the time when the ticket of [id] is looked at, [ignored] the
    ignore list. *)
Definition restore (j : string) (js : jset) (from : Z) (clock : string -> Z) (ignored : string -> bool) (d : db) : list ticket :=
  let forbantime := if js_increment js then None else Some (js_bantime js) in
  (* jail.py:286-292, database.py:809-812 *)
  let correct := if js_increment js then Some (max_bantime js)
                 else if max_bantime js =? -1 then None else Some (max_bantime js) in
  flat_map (fun t =>
    let t := with_restored true t in
    if ignored (t_id t) then []
    else let btm := get_bantime (js_bantime js) t in
         let diftm := clock (t_id t) - t_time t in
         let btm := if negb (btm =? -1) && (diftm >? 0) then btm - diftm else btm in
         if negb (btm =? -1) && (btm <=? 0) then [] else [t])
    (get_current_bans j (js_bantime js) correct forbantime (js_maxm js) from d).

(** ** Purge, database.py:863-889 at time [now] *)
Definition purge (cfg : settings) (now : Z) (d : db) : db :=
  let d := with_cache [] d in
  let d := with_bans (filter (fun r => negb (r_time r <? now - purgeAge cfg)) (db_bans d)) d in
  let d := with_bips (filter (fun kv => negb ((r_time (snd kv) <? now - purgeAge cfg)
                        && negb (r_bt (snd kv) =? -1)
                        && (r_time (snd kv) + r_bt (snd kv) * outDated cfg <? now - purgeAge cfg))) (db_bips d)) d in
  let keep (j : string) (enabled : bool) :=
    enabled || existsb (fun r => eqb (r_jail r) j) (db_bans d)
            || existsb (fun kv => eqb (r_jail (snd kv)) j) (db_bips d) in
  (* deleting a jail deletes its logs (database.py:128) *)
  let gone := map fst (filter (fun kv => negb (keep (fst kv) (snd kv))) (db_jails d)) in
  with_logs (filter (fun kv => negb (inb (fst (fst kv)) gone)) (db_logs d))
    (with_jails (filter (fun kv => keep (fst kv) (snd kv)) (db_jails d)) d).

(** ** Histories *)
Inductive db_op :=
| DAddJail (j : string) | DDelJail (j : string)
| DStart                                        (* the server opens the database: server.py:828-849, delAllJails *)
| DAddBan (j : string) (bt : Z) (t : ticket)
| DDelBan (j : string) (ips : list string)
| DPurge (now : Z)
| DAddLog (j path : string) (pos : Z) (md5 : option string)
| DUpdLog (j path : string) (pos : Z) (md5 : option string)
| DMerged (ip jail : option string) (bantime : option Z) (now : Z).

Definition db_step (cfg : settings) (d : db) (o : db_op) : db :=
  match o with
  | DAddJail j => add_jail j d
  | DDelJail j => del_jail j d
  | DStart => del_all_jails (with_cache [] d)
  | DAddBan j bt t => fst (add_ban cfg j bt t d)
  | DDelBan j ips => del_ban j ips d
  | DPurge now => purge cfg now d
  | DAddLog j path pos md5 => fst (fst (add_log j path pos md5 d))
  | DUpdLog j path pos md5 => fst (update_log j path pos md5 d)
  | DMerged ip jail bantime now => fst (get_bans_merged cfg ip jail bantime now d)
  end.
Definition db_run (cfg : settings) (ops : list db_op) (d : db) : db := fold_left (db_step cfg) ops d.
