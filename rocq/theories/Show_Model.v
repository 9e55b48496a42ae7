(** Model of what fail2ban-client prints for lists and states: fail2ban/client/beautifier.py:76-110 (status), 183-192 (log files),
    208-214 (ignored addresses), 215-227 (expressions) and 249-254 (banned addresses).

    Simplifications: the other answers, which are printed as they are or after one fixed line, are left out, as is the table of statistics;
    numbers in a state are given as the text they are printed as. *)
From Verif Require Import Base Text.
Local Open Scope string_scope. Local Open Scope list_scope.

Definition nl : ascii := ascii_of_N 10.
Definition tab : ascii := ascii_of_N 9.
Definition no_files := tx "No file is currently monitored".
Definition files_head := tx "Current monitored log file(s):".
Definition no_ips := tx "No IP address/network is ignored".
Definition ips_head := tx "These IP addresses/networks are ignored:".
Definition no_regex := tx "No regular expression is defined".
Definition regex_head := tx "The following regular expression are defined:".
(** The loop over all but the last entry and the last one; [lab] is what stands before the entry of a number (beautifier.py:187-192, 212-214, 221-227). *)
Fixpoint entries (lab : nat -> text) (c : nat) (l : list text) : text :=
  match l with
  | [] => []
  | [x] => tx "`- " ++ lab c ++ x
  | x :: r => tx "|- " ++ lab c ++ x ++ [nl] ++ entries lab (S c) r
  end.
Definition show_list (none head : text) (lab : nat -> text) (l : list text) : text :=
  match l with [] => none | _ => head ++ [nl] ++ entries lab 0 l end.
Definition show_files (l : list text) : text := show_list no_files files_head (fun _ => []) l.
Definition show_ips (l : list text) : text := show_list no_ips ips_head (fun _ => []) l.
Definition show_regex (l : list text) : text := show_list no_regex regex_head (fun c => tx "[" ++ dec (Z.of_nat c) ++ tx "]: ") l.
(** beautifier.py:249-254: [sep] is the fourth word of the command, if there is one *)
Definition show_bans (sep : option text) (l : list text) : text :=
  join (match sep with None => tx " " | Some s => if eqb s (tx "--with-time") then [nl] else s end) l.
(** beautifier.py:77-94: the state of a jail *)
Inductive value := VText (t : text) | VList (l : list text).
Definition show_value (v : value) : text := match v with VText t => t | VList l => join (tx " ") l end.
Fixpoint items (pref : text) (l : list (text * value)) : list text :=
  match l with
  | [] => []
  | (k, v) :: r => (pref ++ (match r with [] => tx "`-" | _ => tx "|-" end) ++ tx " " ++ k ++ tx ":" ++ [tab] ++ show_value v) :: items pref r
  end.
Fixpoint jail_stat (pref : text) (l : list (text * list (text * value))) : list text :=
  match l with
  | [] => []
  | (k, vs) :: r =>
      (pref ++ (match r with [] => tx "`-" | _ => tx "|-" end) ++ tx " " ++ k)
      :: items (pref ++ (match r with [] => tx "   " | _ => tx "|  " end)) vs ++ jail_stat pref r
  end.
Definition status_jail (name : text) (l : list (text * list (text * value))) : text := join [nl] ((tx "Status for the jail: " ++ name) :: jail_stat [] l).
(** beautifier.py:96-110: the state of the server and, with --all, of its jails *)
Fixpoint jails (l : list (text * list (text * list (text * value)))) : list text :=
  match l with
  | [] => []
  | (n, j) :: r =>
      (tx "   " ++ (match r with [] => tx "`-" | _ => tx "|-" end) ++ tx " Jail: " ++ n)
      :: jail_stat (match r with [] => tx "      " | _ => tx "   |  " end) j ++ jails r
  end.
Fixpoint server_items (more : bool) (l : list (text * value)) : list text :=
  match l with
  | [] => []
  | (k, v) :: r => ((match r with [] => if more then tx "|-" else tx "`-" | _ => tx "|-" end) ++ tx " " ++ k ++ tx ":" ++ [tab] ++ show_value v) :: server_items more r
  end.
Definition status_all (l : list (text * value)) (js : list (text * list (text * list (text * value)))) : text :=
  let more := match js with [] => false | _ => true end in
  join [nl] (tx "Status" :: server_items more l ++ (if more then tx "`- Status for the jails:" :: jails js else [])).
