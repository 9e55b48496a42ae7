(** Model of the ignore list of a filter: fail2ban/server/filter.py:482-621, with the address
    sets of ipdns.py (IPAddr_Model) and the cache of utils.py (Utils_Model).

    Simplifications:
    - an entry "file:..." is its file name; what the file set holds at the moment of a query is
      given by the world (its reloading is modelled in IPAddr_Model, property C33);
    - names are resolved, own addresses found and the command run by the world;
    - the expansion of tags in the command and in the cache key (modelled in Tags_Model) is a
      function that belongs to the query (it depends on the ticket);
    - logging is left out. *)
From Coq Require Import String.
From Verif Require Import Base Text IPAddr_Model Utils_Model.
From Coq Require Import List.

(** The surroundings at the moment of a query. *)
Record world := mkW {
  w_now     : Z;
  w_own     : list ipaddr;               (* DNSUtils.getSelfIPs(), ipdns.py:216-233 *)
  w_resolve : text -> list ipaddr;       (* DNSUtils.dnsToIp *)
  w_file    : text -> list ipaddr;       (* what a file set holds *)
  w_run     : text -> option Z           (* exit code of a command; None: it cannot be started *)
}.
(** A query: the ID and how tags are replaced for its ticket. *)
Record query := mkQ { q_ip : ipaddr; q_expand : text -> text }.

(** filter.py:83-89; an element of the list is a file set or an IPAddr *)
Inductive entry := EFile (name : text) | EIp (ip : ipaddr).
Record ign := mkIgn {
  g_self  : bool;                              (* __ignoreSelf *)
  g_set   : list ipaddr;                       (* __ignoreIpSet *)
  g_list  : list entry;                        (* __ignoreIpList *)
  g_cmd   : text;                              (* __ignoreCommand, empty: none *)
  g_cache : option (text * cache bool)         (* __ignoreCache: key and cache *)
}.
Definition ign_init : ign := mkIgn true [] [] [] None.
Definition with_set l g := mkIgn (g_self g) l (g_list g) (g_cmd g) (g_cache g).
Definition with_elist l g := mkIgn (g_self g) (g_set g) l (g_cmd g) (g_cache g).
Definition with_cache c g := mkIgn (g_self g) (g_set g) (g_list g) (g_cmd g) c.

(** ipdns.py:743 RE_FILE_IGN_IP: "file:", up to two slashes, the file name (entries have no newline) *)
Definition strip_slash (s : text) : text := match s with c :: r => if eqb c "/"%char then r else s | [] => s end.
Fixpoint after (p s : text) : option text :=
  match p, s with
  | [], _ => Some s
  | a :: p', b :: s' => if eqb a b then after p' s' else None
  | _ :: _, [] => None
  end.
Definition file_name (s : text) : option text :=
  match after (tx "file:") s with Some r => Some (strip_slash (strip_slash r)) | None => None end.

(** [ip in self.__ignoreIpList] (filter.py:515): the elements are compared one by one.  Comparing
    a file set with an IPAddr is a TypeError (ipdns.py:759-766, the regex is given an IPAddr):
    None. *)
Fixpoint list_has (ip : ipaddr) (l : list entry) : option bool :=
  match l with
  | [] => Some false
  | EFile _ :: _ => None
  | EIp x :: r => if ip_eq x ip then Some true else list_has ip r
  end.

(** filter.py:502-525 addIgnoreIP(ipstr); the flag tells that no exception was raised *)
Definition add_ignore (s : text) (g : ign) : ign * bool :=
  match s with
  | [] => (g, true)
  | _ =>
      match file_name s with
      | Some f => (with_elist (g_list g ++ [EFile f]) g, true)
      | None =>
          match ip_new s CUnspec with
          | None => (g, false)                                  (* ValueError: no mask *)
          | Some ip =>
              if set_mem ip (g_set g) then (g, true)
              else match list_has ip (g_list g) with
                   | None => (g, false)                         (* TypeError *)
                   | Some true => (g, true)
                   | Some false =>
                       if is_single ip then (with_set (set_add ip (g_set g)) g, true)
                       else (with_elist (g_list g ++ [EIp ip]) g, true)
                   end
          end
      end
  end.

(** An element of the list compared with a text: ipdns.py:759-766 and 506-518. *)
Definition entry_is (s : text) (e : entry) : bool :=
  match e with
  | EFile n => match file_name s with Some f => eqb n f | None => false end
  | EIp x => match ip_new s CUnspec with Some y => ip_eq x y | None => false end
  end.
(** list.remove(s): the first equal element; None is the ValueError *)
Fixpoint list_remove (s : text) (l : list entry) : option (list entry) :=
  match l with
  | [] => None
  | e :: r => if entry_is s e then Some r else option_map (cons e) (list_remove s r)
  end.
(** [ip in self.__ignoreIpSet] for a text: found by the hash of the text, then compared *)
Definition set_is (s : text) (x : ipaddr) : bool :=
  eqb (ntoa x) s && match ip_new s CUnspec with Some y => ip_eq x y | None => false end.
Fixpoint set_remove (s : text) (l : list ipaddr) : option (list ipaddr) :=
  match l with
  | [] => None
  | x :: r => if set_is s x then Some r else option_map (cons x) (set_remove s r)
  end.

(** filter.py:527-543 delIgnoreIP(ip) *)
Definition del_ignore (s : option text) (g : ign) : ign * bool :=
  match s with
  | None => (with_elist [] (with_set [] g), true)
  | Some s =>
      let from_list := match list_remove s (g_list g) with
                       | Some l => (with_elist l g, true)
                       | None => (g, false)
                       end in
      match file_name s with
      | Some _ => from_list
      | None => match set_remove s (g_set g) with
                | Some l => (with_set l g, true)
                | None => from_list
                end
      end
  end.

(** ip.isInNet(net) for an element of the list (ipdns.py:619-639) *)
Definition in_entry (w : world) (ip : ipaddr) (e : entry) : bool :=
  match e with
  | EFile n => ipset_mem (w_resolve w) ip (ipset_of (w_file w n))
  | EIp net => is_in_net (w_resolve w) ip net
  end.

Definition remember (g : ign) (w : world) (key : string) (v : bool) : ign :=
  match g_cache g with
  | Some (k, c) => with_cache (Some (k, ca_set c (w_now w) key v)) g
  | None => g
  end.
Definition str (t : text) : string := string_of_list_ascii t.

(** filter.py:588-621: the check without the cache look-up.  The second part is the exception that
    unpacking the answer of a command that could not be started raises (utils.py:228-229). *)
Definition check_ignore (g : ign) (w : world) (q : query) (key : string) : ign * option bool :=
  if g_self g && ipset_mem (w_resolve w) (q_ip q) (ipset_of (w_own w)) then (remember g w key true, Some true)
  else if set_mem (q_ip q) (g_set g) then (g, Some true)
  else if existsb (in_entry w (q_ip q)) (g_list g) then (remember g w key true, Some true)
  else match g_cmd g with
       | [] => (remember g w key false, Some false)
       | cmd =>
           match w_run w (q_expand q cmd) with
           | None => (g, None)
           | Some code => let r := ((code =? 0) || (code =? 1)) && (code =? 0) in (remember g w key r, Some r)
           end
       end.

(** filter.py:573-621 _inIgnoreIPList(ip, ticket) *)
Definition in_ignore (g : ign) (w : world) (q : query) : ign * option bool :=
  match g_cache g with
  | None => check_ignore g w q ""%string
  | Some (k, c) =>
      let key := str (q_expand q k) in
      let '(c, v) := ca_get c (w_now w) key in
      let g := with_cache (Some (k, c)) g in
      match v with
      | Some b => (g, Some b)
      | None => check_ignore g w q key
      end
  end.

(** The commands that set the list up, as operations; the reply tells whether they were accepted. *)
Inductive ign_op :=
| IAdd (s : text) | IDel (s : text) | IClear
| ISelf (b : bool)                                  (* filter.py:488-494 *)
| ICommand (c : text)                               (* filter.py:427-429 *)
| ICache (c : option (text * nat * Z))              (* filter.py:440-447 *)
| IQuery (w : world) (q : query).
Definition ign_step (g : ign) (o : ign_op) : ign * bool :=
  match o with
  | IAdd s => add_ignore s g
  | IDel s => del_ignore (Some s) g
  | IClear => del_ignore None g
  | ISelf b => (mkIgn b (g_set g) (g_list g) (g_cmd g) (g_cache g), true)
  | ICommand c => (mkIgn (g_self g) (g_set g) (g_list g) c (g_cache g), true)
  | ICache None => (with_cache None g, true)
  | ICache (Some (k, m, t)) => (with_cache (Some (k, mkCache [] m t)) g, true)
  | IQuery w q => (fst (in_ignore g w q), true)
  end.
Fixpoint ign_run (g : ign) (ops : list ign_op) : ign * list bool :=
  match ops with
  | [] => (g, [])
  | o :: r => let '(g', b) := ign_step g o in let '(g'', bs) := ign_run g' r in (g'', b :: bs)
  end.

Definition w0 : world := mkW 0 [] (fun _ => []) (fun _ => []) (fun _ => None).
Example ignore_demo : option_map (fun ip => snd (in_ignore (fst (ign_run ign_init [IAdd (tx "127.0.0.1"); IAdd (tx "192.0.2.0/24")])) w0 (mkQ ip (fun t => t))))
  (ip_new (tx "192.0.2.77") CUnspec) = Some (Some true).
Proof. vm_compute. reflexivity. Qed.
