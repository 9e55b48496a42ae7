(** Specification vocabulary for the opening of the database. *)
From Verif Require Import Base Ticket_Model Database_Model DbOpen_Model.
Local Open Scope string_scope.
Local Open Scope list_scope.
Local Open Scope Z_scope.

(** A sound database of a version: all its tables, in the form of that version; one row for a log file of a jail,
    and every row belongs to a known jail. *)
Definition in_jails (js : dict string bool) (j : string) : Prop := exists e, dget j js = Some e.
Record sound (v : Z) (f : file) : Prop := {
  so_version : f_version f = Some [v];
  so_jails : exists js, f_jails f = Some js
    /\ (exists ls, f_logs f = Some ls /\ (forall l, In l ls -> in_jails js (l_jail l)) /\ NoDup (map (fun l => (l_jail l, l_path l)) ls))
    /\ (v < 3 -> exists bs, f_bans f = Some (BansOld bs) /\ forall b, In b bs -> in_jails js (o_jail b))
    /\ (3 <= v -> exists bs, f_bans f = Some (BansNew bs) /\ forall b, In b bs -> in_jails js (r_jail b))
    /\ (v < 4 -> f_bips f = None)
    /\ (4 <= v -> exists bips, f_bips f = Some bips) }.

(** The same ban: nothing of it is lost; the ban time of the older versions is unknown (-2), the count one. *)
Definition ban_of_old (o : old_ban) (r : row) : Prop :=
  r_jail r = o_jail o /\ r_ip r = o_ip o /\ r_time r = o_time o /\ r_fail r = o_fail o /\ r_matches r = o_matches o /\ r_bt r = -2 /\ r_count r = 1.
Definition same_bans (a : option bans_table) (l : list row) : Prop :=
  match a with
  | Some (BansOld bs) => Forall2 ban_of_old bs l
  | Some (BansNew bs) => l = bs
  | None => l = []
  end.
(** [r] is a newest ban of the ID in the jail. *)
Definition latest (l : list row) (ip j : string) (r : row) : Prop :=
  In r l /\ r_ip r = ip /\ r_jail r = j /\ forall r', In r' l -> r_ip r' = ip -> r_jail r' = j -> r_time r' <= r_time r.
Definition latest_bans (l : list row) (bips : dict (string * string) row) : Prop :=
  forall ip j, match dget (ip, j) bips with
               | Some r => latest l ip j r
               | None => forall r, In r l -> ~ (r_ip r = ip /\ r_jail r = j)
               end.
(** [f'] has the jails, the logs and the bans of [f], in the form of version 4. *)
Definition keeps (f f' : file) (l : list row) : Prop :=
  f_jails f' = f_jails f /\ f_logs f' = f_logs f /\ f_bans f' = Some (BansNew l) /\ same_bans (f_bans f) l.
(** All tables of [f] are in [f'], unchanged. *)
Definition extends (f f' : file) : Prop :=
  (f_version f <> None -> f_version f' = f_version f) /\ (f_jails f <> None -> f_jails f' = f_jails f) /\ (f_logs f <> None -> f_logs f' = f_logs f)
  /\ (f_bans f <> None -> f_bans f' = f_bans f) /\ (f_bips f <> None -> f_bips f' = f_bips f).
(** All tables exist, and the version is the current one. *)
Definition current (f : file) : Prop :=
  (exists rest, f_version f = Some (4 :: rest)) /\ f_jails f <> None /\ f_logs f <> None /\ f_bans f <> None /\ f_bips f <> None.
