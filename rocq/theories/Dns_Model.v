(** Model of fail2ban/server/ipdns.py: getfqdn (46-71) and DNSUtils (79-313) but for files of addresses
    (see IPAddr_Model).  Each call happens at one moment [t] of the system's clock (time.time()). *)
From Verif Require Import Base Text IPAddr_Model Utils_Model.
Local Open Scope string_scope.
Local Open Scope list_scope.
Local Open Scope Z_scope.

(** What the system answers, at each moment; None: it raises an exception.  The texts of the results of
    getaddrinfo for one family; the canonical names getaddrinfo finds for a name; socket.getfqdn; the
    addresses of the interfaces; has the system IPv6 (None: unable to detect, 251-281). *)
Record world := mkWorld {
  w_addrs : Z -> bool -> text -> option (list text);
  w_reverse : Z -> text -> option text;
  w_host : Z -> option text;
  w_canon : Z -> text -> option (list text);
  w_fqdn : Z -> text -> option text;
  w_ifs : Z -> option (list text);
  w_sys6 : Z -> option bool }.

(** The names of this host.  Python's None may be among them. *)
Definition name := option text.
(** The values of the two caches. *)
Inductive ival := IIps (l : list ipaddr) | IBool (b : bool).
Inductive nval := NName (n : name) | NNames (l : list name).
(** What was asked, with the time (only for the statements). *)
Inductive question := QAddr (n : name) | QName (ip : text).
Record dns := mkDns { d_ips : cache ival; d_names : cache nval; d_allowed : option bool; d_asked : list (Z * question) }.
(** ipdns.py:82-83, 249 *)
Definition dns_init : dns := mkDns (mkCache [] 1000 300) (mkCache [] 1000 300) None [].
Definition with_ips c (s : dns) := mkDns c (d_names s) (d_allowed s) (d_asked s).
Definition with_names c (s : dns) := mkDns (d_ips s) c (d_allowed s) (d_asked s).
Definition ask (t : Z) (q : question) (s : dns) := mkDns (d_ips s) (d_names s) (d_allowed s) (d_asked s ++ [(t, q)]).

(** The keys: a text or None as it is, tuples for the rest *)
Definition k_name (n : name) : string := match n with Some n => String "=" (string_of_list_ascii n) | None => "None" end.
Definition k_ip (ip : text) : string := String "=" (string_of_list_ascii ip).
Definition k_hostname (fqdn : bool) : string := if fqdn then "self,hostname,True" else "self,hostname,False".
Definition k_names : string := "self,dns".
Definition k_ifs : string := "netintrf,ips".
Definition k_self : string := "self,ips".
Definition k_ipv6 : string := "self,ipv6-allowed".

Section Dns.
Variable W : world.

(** ipdns.py:98-110: the addresses of one family; getaddrinfo(None, None) raises *)
Definition ips_of (t : Z) (v6 : bool) (n : name) (ips : list ipaddr) : list ipaddr :=
  match (match n with Some n => w_addrs W t v6 n | None => None end) with
  | None => ips
  | Some l =>
      fold_left (fun ips a => match ip_new a (CFam v6) with
                              | Some ip => if is_valid ip then set_add ip ips else ips
                              | None => ips
                              end) l ips
  end.
(** ipdns.py:95-110 *)
Definition resolve (t : Z) (v6 : bool) (n : name) : list ipaddr :=
  let ips := ips_of t false n [] in if v6 then ips_of t true n ips else ips.

(** ipdns.py:86-115 dnsToIp; [allowed] is IPv6IsAllowed() *)
Definition dns_with (allowed : dns -> dns * bool) (t : Z) (n : name) (s : dns) : dns * list ipaddr :=
  let '(c, r) := ca_get (d_ips s) t (k_name n) in
  let s := with_ips c s in
  match r with
  | Some (IIps ips) => (s, ips)
  | Some (IBool _) => (s, []) (* never: the keys differ *)
  | None =>
      let '(s, v6) := allowed s in
      let ips := resolve t v6 n in
      let s := ask t (QAddr n) s in
      (with_ips (ca_set (d_ips s) t (k_name n) (IIps ips)) s, ips)
  end.

(** ipdns.py:116-129 ipToName *)
Definition ip_to_name (t : Z) (ip : text) (s : dns) : dns * name :=
  let '(c, r) := ca_get (d_names s) t (k_ip ip) in
  let s := with_names c s in
  match r with
  | Some (NName n) => (s, n)
  | Some (NNames _) => (s, None) (* never: the keys differ *)
  | None =>
      let n := w_reverse W t ip in
      let s := ask t (QName ip) s in
      (with_names (ca_set (d_names s) t (k_ip ip) (NName n)) s, n)
  end.

(** ipdns.py:46-71 getfqdn(); the generator [names] counts as true even if it gives nothing, and then None is
    returned.  The outer None: an exception. *)
Definition starts_dot (h a : text) : bool := let p := h ++ tx "." in eqb (firstn (List.length p) a) p.
Definition get_fqdn (t : Z) : option name :=
  match w_host W t with
  | None => match w_fqdn W t [] with Some n => Some (Some n) | None => None end
  | Some h =>
      match w_canon W t h with
      | None => match w_fqdn W t h with Some n => Some (Some n) | None => None end
      | Some l =>
          let l := filter (fun a : text => negb (eqb a [])) l in
          match filter (starts_dot h) l with
          | a :: _ => Some (Some a)
          | [] => Some (hd_error l)
          end
      end
  end.
(** ipdns.py:154-174 getHostname *)
Definition get_hostname (t : Z) (fqdn : bool) (s : dns) : dns * name :=
  let '(c, r) := ca_get (d_names s) t (k_hostname fqdn) in
  let s := with_names c s in
  match r with
  | Some (NName (Some n)) => (s, Some n)
  | _ =>
      let host := match w_host W t with Some h => Some (Some h) | None => None end in
      let '(a, b) := if fqdn then (get_fqdn t, host) else (host, get_fqdn t) in
      let n := match a with Some n => n | None => match b with Some n => n | None => Some [] end end in
      (with_names (ca_set (d_names s) t (k_hostname fqdn) (NName n)) s, n)
  end.
(** ipdns.py:176-192 getSelfNames; the order of the set does not matter *)
Definition name_add (n : name) (l : list name) : list name := if inb n l then l else l ++ [n].
Definition self_names (t : Z) (s : dns) : dns * list name :=
  let '(c, r) := ca_get (d_names s) t k_names in
  let s := with_names c s in
  match r with
  | Some (NNames l) => (s, l)
  | _ =>
      let '(s, a) := get_hostname t false s in
      let '(s, b) := get_hostname t true s in
      let l := filter (fun n => negb (eqb n (Some []))) (name_add b (name_add a [Some (tx "localhost")])) in
      (with_names (ca_set (d_names s) t k_names (NNames l)) s, l)
  end.

(** ipdns.py:194-211 getNetIntrfIPs *)
Fixpoint ips_new (l : list text) : option (list ipaddr) :=
  match l with
  | [] => Some []
  | a :: l => match ip_new a CUnspec, ips_new l with Some ip, Some r => Some (ip :: r) | _, _ => None end
  end.
Definition addr_set (l : list ipaddr) : list ipaddr := fold_left (fun l ip => set_add ip l) l [].
Definition if_ips (t : Z) : list ipaddr := match w_ifs W t with Some l => match ips_new l with Some l => addr_set l | None => [] end | None => [] end.
Definition net_ips (t : Z) (s : dns) : dns * list ipaddr :=
  let '(c, r) := ca_get (d_ips s) t k_ifs in
  let s := with_ips c s in
  match r with
  | Some (IIps ips) => (s, ips)
  | _ => let ips := if_ips t in (with_ips (ca_set (d_ips s) t k_ifs (IIps ips)) s, ips)
  end.

(** ipdns.py:213-233 getSelfIPs *)
Definition union (a b : list ipaddr) : list ipaddr := fold_left (fun l ip => set_add ip l) b a.
Fixpoint all_ips (dns_to_ip : name -> dns -> dns * list ipaddr) (l : list name) (ips : list ipaddr) (s : dns) : dns * list ipaddr :=
  match l with
  | [] => (s, ips)
  | n :: l => let '(s, i) := dns_to_ip n s in all_ips dns_to_ip l (union ips (addr_set i)) s
  end.
Definition self_with (dns_to_ip : name -> dns -> dns * list ipaddr) (t : Z) (s : dns) : dns * list ipaddr :=
  let '(c, r) := ca_get (d_ips s) t k_self in
  let s := with_ips c s in
  match r with
  | Some (IIps ips) => (s, ips)
  | _ =>
      let '(s, ifs) := net_ips t s in
      let '(s, l) := self_names t s in
      let '(s, ips) := all_ips dns_to_ip l (addr_set ifs) s in
      (with_ips (ca_set (d_ips s) t k_self (IIps ips)) s, ips)
  end.

(** ipdns.py:289-311 IPv6IsAllowed.  While the own addresses are looked up for it the permission is set to
    yes (304-308), so that this does not call itself. *)
Definition has_colon (ip : ipaddr) : bool := inb ":"%char (ntoa ip).
Definition ipv6_allowed (t : Z) (s : dns) : dns * bool :=
  match d_allowed s with
  | Some b => (s, b)
  | None =>
      let '(c, r) := ca_get (d_ips s) t k_ipv6 in
      let s := with_ips c s in
      match r with
      | Some (IBool b) => (s, b)
      | _ =>
          let '(s, b) :=
            match w_sys6 W t with
            | Some b => (s, b)
            | None =>
                let '(s, ips) := net_ips t s in
                let '(s, ips) := match ips with
                                 | [] => self_with (dns_with (fun s => (s, true)) t) t s
                                 | _ => (s, ips)
                                 end in
                (s, existsb has_colon ips)
            end in
          (with_ips (ca_set (d_ips s) t k_ipv6 (IBool b)) s, b)
      end
  end.
Definition dns_to_ip (t : Z) (n : name) (s : dns) : dns * list ipaddr := dns_with (ipv6_allowed t) t n s.
Definition self_ips (t : Z) (s : dns) : dns * list ipaddr := self_with (dns_to_ip t) t s.

(** ipdns.py:131-152 textToIp *)
Definition plain_ip (a : text) : list ipaddr :=
  match search_ip a with
  | Some x => match ip_new x CUnspec with Some ip => if is_valid ip then [ip] else [] | None => [] end
  | None => []
  end.
Definition text_to_ips (t : Z) (a : text) (u : usedns) (s : dns) : dns * list ipaddr :=
  match u, plain_ip a with
  | (DnsYes | DnsWarn), [] => dns_to_ip t (Some a) s
  | _, l => (s, l)
  end.

(** ** Histories.  The setting: ipdns.py:283-287, server.py:813-816; a reload of all jails forgets
    all names, server.py:291-294, 318. *)
Inductive op :=
| ODns (t : Z) (n : text) | OReverse (t : Z) (ip : text) | OHost (t : Z) (fqdn : bool) | ONames (t : Z) | OIfs (t : Z) | OSelf (t : Z)
| OAllowed (t : Z) | OText (t : Z) (a : text) (u : usedns) | OSet (b : option bool) | OForget.
Inductive out := RIps (l : list ipaddr) | RName (n : name) | RNames (l : list name) | RBool (b : bool) | RNone.
Definition dns_step (s : dns) (o : op) : dns * out :=
  match o with
  | ODns t n => let '(s, l) := dns_to_ip t (Some n) s in (s, RIps l)
  | OReverse t ip => let '(s, n) := ip_to_name t ip s in (s, RName n)
  | OHost t f => let '(s, n) := get_hostname t f s in (s, RName n)
  | ONames t => let '(s, l) := self_names t s in (s, RNames l)
  | OIfs t => let '(s, l) := net_ips t s in (s, RIps l)
  | OSelf t => let '(s, l) := self_ips t s in (s, RIps l)
  | OAllowed t => let '(s, b) := ipv6_allowed t s in (s, RBool b)
  | OText t a u => let '(s, l) := text_to_ips t a u s in (s, RIps l)
  | OSet b => (mkDns (d_ips s) (d_names s) b (d_asked s), RNone)
  | OForget => (mkDns (ca_with_list [] (d_ips s)) (ca_with_list [] (d_names s)) (d_allowed s) (d_asked s), RNone)
  end.
Definition dns_run (ops : list op) : dns := fold_left (fun s o => fst (dns_step s o)) ops dns_init.
End Dns.
