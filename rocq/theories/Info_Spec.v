(** Specification vocabulary for what an action is told about a ban. *)
From Verif Require Import Base Ticket_Model Info_Model.
Local Open Scope string_scope.
Local Open Scope list_scope.
Local Open Scope Z_scope.

(** The ban of [w] as the manual describes it: what each key stands for. *)
Definition lines (l : list string) : res := Ok (VStr (String.concat newline l)).
Definition number (n : Z) : res := Ok (VNum n).
Definition merged_or_own (w : world) (overall : bool) : list string * Z :=
  match w_merged w with
  | Some q => match q overall (VIP (w_addr w)) with Some m => m | None => (get_matches (w_ticket w), t_failures (w_ticket w)) end
  | None => (get_matches (w_ticket w), t_failures (w_ticket w))
  end.
Definition told (w : world) : list (string * res) :=
  let t := w_ticket w in
  [("ip", Ok (VIP (w_addr w))); ("fid", Ok (VIP (t_id t)));
   ("family", w_of_ip w CFamily (w_addr w)); ("ip-rev", w_of_ip w CRev (w_addr w)); ("ip-host", w_of_ip w CHost (w_addr w));
   ("failures", number (t_failures t)); ("time", number (t_time t)); ("bancount", number (t_bancount t));
   ("bantime", number (match t_bantime t with Some b => b | None => w_bantime w end));
   ("matches", lines (get_matches t)); ("restored", number (if t_restored t then 1 else 0)); ("F-*", Ok (VData (w_data w)));
   ("ipmatches", lines (fst (merged_or_own w true))); ("ipjailmatches", lines (fst (merged_or_own w false)));
   ("ipfailures", number (snd (merged_or_own w true))); ("ipjailfailures", number (snd (merged_or_own w false)));
   ("raw-ticket", Ok (VStr (w_repr w)));
   ("jail.banned", number (w_banned w)); ("jail.banned_total", number (w_banned_total w));
   ("jail.found", number (w_found w)); ("jail.found_total", number (w_found_total w))].
Definition meaning (w : world) (k : string) : res := match dget k (told w) with Some r => r | None => Err KeyError end.

(** The moments at which an action read something. *)
Definition worlds (ops : list op) : list world := flat_map (fun o => match o with Get w _ => [w] | _ => [] end) ops.
(** The keys an action set or deleted. *)
Definition touched (ops : list op) : list string := flat_map (fun o => match o with Set_ k _ => [k] | Del k => [k] | _ => [] end) ops.
Definition only_reads (ops : list op) : Prop := forall o, In o ops -> exists w k, o = Get w k.
(** Nothing does what fail2ban never does: a reset that leaves the shared table open to changes. *)
Definition proper (ops : list op) : Prop := ~ In (Reset false) ops.
Definition one_address (a : string) (ws : list world) : Prop := forall w, In w ws -> w_addr w = a.
(** The state when the actions [pre] are done and the next one has done [ops]. *)
Definition start : sys := mkSys fresh ai_dict.
Definition after (pre : list (list op)) (ops : list op) : sys := fst (run (before_action (fst (run_actions start pre))) ops).
