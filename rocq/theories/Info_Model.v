(** Model of what an action is told about a ban: fail2ban/server/action.py:75-180 (CallingMap) and
    fail2ban/server/actions.py:370-468 (ActionInfo).

    The dictionary AI_DICT of the class is one object for all tickets, so that the model has references: [data] of an
    information is the shared table or an own copy.  What the ticket, the jail, the database and the name service say
    may change at any time: each reading has its own [world].  Simplifications: an action sets plain values (no
    callables); iteration and printing are left out. *)
From Verif Require Import Base Ticket_Model.
Local Open Scope string_scope.
Local Open Scope list_scope.
Local Open Scope Z_scope.

Inductive val := VNum (n : Z) | VStr (s : string) | VIP (ip : string) | VData (l : list (string * string)).
Inductive exc := KeyError | AttributeError | OtherError.
Inductive res := Ok (v : val) | Err (e : exc).

(** The lambdas of AI_DICT. *)
Inductive calc :=
  CIp | CFamily | CRev | CHost | CFid | CFailures | CTime | CBantime | CBancount | CMatches | CRestored | CData
| CIpMatches | CIpJailMatches | CIpFailures | CIpJailFailures | CRaw | CBanned | CBannedTotal | CFound | CFoundTotal.
Inductive entry := Lazy (c : calc) | Plain (v : val).
(** actions.py:374-401 *)
Definition ai_dict : dict string entry :=
  map (fun p => (fst p, Lazy (snd p)))
  [("ip", CIp); ("family", CFamily); ("ip-rev", CRev); ("ip-host", CHost); ("fid", CFid); ("failures", CFailures); ("time", CTime);
   ("bantime", CBantime); ("bancount", CBancount); ("matches", CMatches); ("restored", CRestored); ("F-*", CData); ("ipmatches", CIpMatches);
   ("ipjailmatches", CIpJailMatches); ("ipfailures", CIpFailures); ("ipjailfailures", CIpJailFailures); ("raw-ticket", CRaw);
   ("jail.banned", CBanned); ("jail.banned_total", CBannedTotal); ("jail.found", CFound); ("jail.found_total", CFoundTotal)].

(** What is true when a value is calculated. *)
Record world := mkWorld {
  w_ticket : ticket;
  w_addr : string;                                      (* ticket.py:98-99 getIP *)
  w_data : list (string * string);                      (* the data of the ticket *)
  w_repr : string;                                      (* repr of the ticket *)
  w_bantime : Z;                                        (* jail.actions.getBanTime() *)
  w_of_ip : calc -> string -> res;                      (* familyStr, getPTR, getHost of an address *)
  w_merged : option (bool -> val -> option (list string * Z)); (* the database; getBansMerged of all jails or of this one: matches and failures; None: nothing found or an error *)
  w_banned : Z; w_banned_total : Z; w_found : Z; w_found_total : Z }.

Definition newline : string := String (Ascii.ascii_of_nat 10) EmptyString.
(** actions.py:415-418 *)
Definition ban_time (w : world) : Z := match t_bantime (w_ticket w) with Some b => b | None => w_bantime w end.
(** actions.py:420-460 _mi4ip: [hasattr(self, '__mi4ip')] asks for a name that is not mangled, so nothing is ever
    remembered. *)
Definition mi4ip (w : world) (overall : bool) (ip : val) : list string * Z :=
  let own := (get_matches (w_ticket w), t_failures (w_ticket w)) in
  match w_merged w with
  | None => own
  | Some q => match q overall ip with Some m => m | None => own end
  end.
(** Values that do not need another one. *)
Definition compute (w : world) (c : calc) : option res :=
  let t := w_ticket w in
  match c with
  | CIp => Some (Ok (VIP (w_addr w)))
  | CFid => Some (Ok (VIP (t_id t)))
  | CFailures => Some (Ok (VNum (t_failures t)))
  | CTime => Some (Ok (VNum (t_time t)))
  | CBantime => Some (Ok (VNum (ban_time w)))
  | CBancount => Some (Ok (VNum (t_bancount t)))
  | CMatches => Some (Ok (VStr (String.concat newline (get_matches t))))
  | CRestored => Some (Ok (VNum (if t_restored t then 1 else 0)))
  | CData => Some (Ok (VData (w_data w)))
  | CRaw => Some (Ok (VStr (w_repr w)))
  | CBanned => Some (Ok (VNum (w_banned w)))
  | CBannedTotal => Some (Ok (VNum (w_banned_total w)))
  | CFound => Some (Ok (VNum (w_found w)))
  | CFoundTotal => Some (Ok (VNum (w_found_total w)))
  | _ => None
  end.
(** Values of the address which self['ip'] gave. *)
Definition compute_ip (w : world) (c : calc) (ip : res) : res :=
  match c with
  | CFamily | CRev | CHost =>
      match ip with Ok (VIP a) => w_of_ip w c a | Ok _ => Err AttributeError | Err e => Err e end
  | _ =>
      (* 447-460: an error of self['ip'] leaves mi[idx] unset *)
      match ip with
      | Err _ => Err KeyError
      | Ok v =>
          match c with
          | CIpMatches => Ok (VStr (String.concat newline (fst (mi4ip w true v))))
          | CIpJailMatches => Ok (VStr (String.concat newline (fst (mi4ip w false v))))
          | CIpFailures => Ok (VNum (snd (mi4ip w true v)))
          | _ => Ok (VNum (snd (mi4ip w false v)))
          end
      end
  end.

(** ** action.py:75-180 *)
Inductive ref := Shared | Own (d : dict string entry).
Record info := mkInfo { i_storage : dict string entry; i_data : ref; i_immutable : bool; i_org : option ref }.
(** The information, and the table of the class. *)
Record sys := mkSys { s_info : info; s_table : dict string entry }.
(** actions.py:405-410 *)
Definition fresh : info := mkInfo [] Shared true None.
Definition deref (s : sys) : dict string entry := match i_data (s_info s) with Shared => s_table s | Own d => d end.
Definition with_info i s := mkSys i (s_table s).
Definition with_storage v i := mkInfo v (i_data i) (i_immutable i) (i_org i).
(** action.py:132-137 *)
Definition raw (k : string) (s : sys) : option entry :=
  match dget k (i_storage (s_info s)) with Some e => Some e | None => dget k (deref s) end.
Definition keep (k : string) (r : res) (s : sys) : sys :=
  match r with Ok v => with_info (with_storage (dset k (Plain v) (i_storage (s_info s))) (s_info s)) s | Err _ => s end.
(** action.py:139-148 *)
Definition get_ip (w : world) (s : sys) : sys * res :=
  match raw "ip" s with
  | None => (s, Err KeyError)
  | Some (Plain v) => (s, Ok v)
  | Some (Lazy c) => match compute w c with Some r => (keep "ip" r s, r) | None => (s, Err OtherError) (* not reached *) end
  end.
Definition get (w : world) (k : string) (s : sys) : sys * res :=
  match raw k s with
  | None => (s, Err KeyError)
  | Some (Plain v) => (s, Ok v)
  | Some (Lazy c) =>
      match compute w c with
      | Some r => (keep k r s, r)
      | None => let '(s, ip) := get_ip w s in let r := compute_ip w c ip in (keep k r s, r)
      end
  end.
(** action.py:152-156, 164-168 *)
Definition mutate (s : sys) : sys :=
  let i := s_info s in
  if i_immutable i then with_info (mkInfo (i_storage i) (Own (deref s)) false (Some (i_data i))) s else s.
(** action.py:150-157 *)
Definition set (k : string) (v : val) (s : sys) : sys :=
  let s := mutate s in with_info (with_storage (dset k (Plain v) (i_storage (s_info s))) (s_info s)) s.
(** action.py:162-173 *)
Definition del (k : string) (s : sys) : sys * bool :=
  let s := mutate s in
  let s := with_info (with_storage (ddel k (i_storage (s_info s))) (s_info s)) s in
  if dmem k (deref s) then
    (match i_data (s_info s) with
     | Shared => mkSys (s_info s) (ddel k (s_table s))
     | Own d => with_info (mkInfo (i_storage (s_info s)) (Own (ddel k d)) (i_immutable (s_info s)) (i_org (s_info s))) s
     end, true)
  else (s, false).
(** action.py:100-106 *)
Definition reset (immutable : bool) (s : sys) : sys :=
  let i := s_info s in with_info (mkInfo [] (match i_org i with Some r => r | None => i_data i end) immutable (i_org i)) s.

(** ** What an action does with it, and the actions one after the other (actions.py:506-519, 580-592, 605-621, 708-718):
    [if not aInfo.immutable: aInfo.reset()] before each. *)
Inductive op := Get (w : world) (k : string) | Set_ (k : string) (v : val) | Del (k : string) | Reset (immutable : bool).
Inductive out := Got (r : res) | Done (ok : bool).
Definition step (s : sys) (o : op) : sys * out :=
  match o with
  | Get w k => let '(s, r) := get w k s in (s, Got r)
  | Set_ k v => (set k v s, Done true)
  | Del k => let '(s, ok) := del k s in (s, Done ok)
  | Reset b => (reset b s, Done true)
  end.
Fixpoint run (s : sys) (ops : list op) : sys * list out :=
  match ops with
  | [] => (s, [])
  | o :: ops => let '(s, x) := step s o in let '(s, l) := run s ops in (s, x :: l)
  end.
Definition before_action (s : sys) : sys := if i_immutable (s_info s) then s else reset true s.
Fixpoint run_actions (s : sys) (acts : list (list op)) : sys * list (list out) :=
  match acts with
  | [] => (s, [])
  | a :: acts => let '(s, x) := run (before_action s) a in let '(s, l) := run_actions s acts in (s, x :: l)
  end.

(** ** The commands without a ban (start, stop, flush), action.py:460-471: one information for all of them, made with an
    empty ticket by the first one. *)
Record command := mkCmd { k_time : Z; k_family : string; k_reads : list (world * string) }.
Definition run_command (s : sys) (c : command) : sys * list out :=
  run s (Set_ "time" (VNum (k_time c)) :: Set_ "family" (VStr (k_family c)) :: map (fun p => Get (fst p) (snd p)) (k_reads c)).
Fixpoint run_commands (s : sys) (cs : list command) : sys * list (list out) :=
  match cs with
  | [] => (s, [])
  | c :: cs => let '(s, x) := run_command s c in let '(s, l) := run_commands s cs in (s, skipn 2 x :: l)
  end.
