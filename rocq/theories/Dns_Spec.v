(** Specification vocabulary for names and addresses of hosts. *)
From Verif Require Import Base Text IPAddr_Model Dns_Model.
Local Open Scope string_scope.
Local Open Scope list_scope.
Local Open Scope Z_scope.

(** Two addresses are the same element of a set; the list [l] is, as a set, the set of all [P]. *)
Definition same_ip (a b : ipaddr) : Prop := ntoa a = ntoa b /\ ip_eq a b = true.
Definition set_of (P : ipaddr -> Prop) (l : list ipaddr) : Prop :=
  forall ip, set_mem ip l = true <-> exists ip', P ip' /\ same_ip ip ip'.

(** The resolver gives this address for the name, with IPv6 or without. *)
Definition address_of (W : world) (t : Z) (v6 : bool) (n : name) (ip : ipaddr) : Prop :=
  exists fam h l a, n = Some h /\ (fam = true -> v6 = true) /\ w_addrs W t fam h = Some l /\ In a l
    /\ ip_new a (CFam fam) = Some ip /\ is_valid ip = true.
(** An interface has this address; all of them must be readable. *)
Definition interface_of (W : world) (t : Z) (ip : ipaddr) : Prop :=
  exists l, w_ifs W t = Some l /\ (forall a, In a l -> ip_new a CUnspec <> None) /\ exists a, In a l /\ ip_new a CUnspec = Some ip.

(** The full name of the host: the first canonical name which begins with the host's and a dot, else the
    first canonical name; without one of them Python's None.  If the host's name or the canonical names are
    not to be had, what the system says for it. *)
Definition first_such (P : text -> Prop) (l : list text) (a : text) : Prop :=
  exists l1 l2, l = l1 ++ a :: l2 /\ P a /\ Forall (fun b => ~ P b) l1.
Definition full_name (W : world) (t : Z) (r : option name) : Prop :=
  match w_host W t with
  | None => r = option_map (@Some text) (w_fqdn W t [])
  | Some h =>
      match w_canon W t h with
      | None => r = option_map (@Some text) (w_fqdn W t h)
      | Some l =>
          (exists a, first_such (fun a => exists x, a = h ++ tx "." ++ x) l a /\ r = Some (Some a))
          \/ (forall a, In a l -> ~ exists x, a = h ++ tx "." ++ x)
             /\ ((exists a, first_such (fun a => a <> []) l a /\ r = Some (Some a))
                 \/ (forall a, In a l -> a = []) /\ r = Some None)
      end
  end.
(** The name of the host, full or short: the one asked for, the other one if that cannot be had, else empty. *)
Definition host_name (W : world) (t : Z) (fqdn : bool) (n : name) : Prop :=
  exists full, full_name W t full /\
  let short := option_map (@Some text) (w_host W t) in
  let '(a, b) := if fqdn then (full, short) else (short, full) in
  n = match a, b with Some n, _ => n | None, Some n => n | None, None => Some [] end.

(** Something that was so at a moment at most five minutes before [t], at which one asked ([T]). *)
Definition recent (T : Z -> Prop) (X : Z -> Prop) (t : Z) : Prop := exists t0, T t0 /\ t < t0 + 300 /\ X t0.

(** The own names, as one knows them at [t]: the names of the host may be five minutes old. *)
Definition own_names (W : world) (T : Z -> Prop) (t : Z) (l : list name) : Prop :=
  exists h f, recent T (fun t0 => host_name W t0 false h) t /\ recent T (fun t0 => host_name W t0 true f) t
    /\ forall n, In n l <-> (n = Some (tx "localhost") \/ n = h \/ n = f) /\ n <> Some [].
(** The own addresses: those of the interfaces, and those of the own names. *)
Definition own_ips (W : world) (T : Z -> Prop) (perm : Z -> name -> bool -> Prop) (t : Z) (l : list ipaddr) : Prop :=
  exists (ifs : ipaddr -> Prop) (answers : list (name * (ipaddr -> Prop))),
    recent T (fun t0 => forall ip, ifs ip <-> interface_of W t0 ip) t
    /\ recent T (fun t0 => own_names W T t0 (map fst answers)) t
    /\ (forall n A, In (n, A) answers -> recent T (fun t0 => exists v6, perm t0 n v6 /\ forall ip, A ip <-> address_of W t0 v6 n ip) t)
    /\ set_of (fun ip => ifs ip \/ exists n A, In (n, A) answers /\ A ip) l.
(** Is IPv6 to be used, if that is to be found out. *)
Definition detected (W : world) (T : Z -> Prop) (perm : Z -> name -> bool -> Prop) (t : Z) (b : bool) : Prop :=
  match w_sys6 W t with
  | Some x => b = x
  | None =>
      exists ifs : ipaddr -> Prop, recent T (fun t0 => forall ip, ifs ip <-> interface_of W t0 ip) t
        /\ ((exists ip, ifs ip) /\ (b = true <-> exists ip, ifs ip /\ In ":"%char (ntoa ip))
            \/ (forall ip, ~ ifs ip) /\ exists l, recent T (fun t0 => own_ips W T perm t0 l) t /\ (b = true <-> exists ip, In ip l /\ In ":"%char (ntoa ip)))
  end.

(** The times of the calls; the settings made. *)
Definition time_of (o : op) : list Z :=
  match o with
  | ODns t _ | OReverse t _ | OHost t _ | ONames t | OIfs t | OSelf t | OAllowed t | OText t _ _ => [t]
  | OSet _ | OForget => []
  end.
Definition sets (o : op) : bool := match o with OSet _ => true | _ => false end.
Definition forgets (o : op) : bool := match o with OForget => true | _ => false end.
Definition dns_from (W : world) (s : dns) (ops : list op) : dns := fold_left (fun s o => fst (dns_step W s o)) ops s.
(** Nothing is known, and the setting is [b]. *)
Definition blank (s : dns) (b : option bool) : Prop :=
  Utils_Model.ca_list (d_ips s) = [] /\ Utils_Model.ca_list (d_names s) = [] /\ Utils_Model.ca_ttl (d_ips s) = 300 /\ Utils_Model.ca_ttl (d_names s) = 300 /\ d_allowed s = b.

(** The world does not change. *)
Record constant (W : world) : Prop := {
  cw_addrs : forall t t' f n, w_addrs W t f n = w_addrs W t' f n;
  cw_reverse : forall t t' ip, w_reverse W t ip = w_reverse W t' ip;
  cw_host : forall t t', w_host W t = w_host W t';
  cw_canon : forall t t' h, w_canon W t h = w_canon W t' h;
  cw_fqdn : forall t t' h, w_fqdn W t h = w_fqdn W t' h;
  cw_ifs : forall t t', w_ifs W t = w_ifs W t';
  cw_sys6 : forall t t', w_sys6 W t = w_sys6 W t' }.
(** What is so in it: the own names and addresses, the use of IPv6. *)
Definition the_names (W : world) (n : name) : Prop :=
  (n = Some (tx "localhost") \/ host_name W 0 false n \/ host_name W 0 true n) /\ n <> Some [].
Definition the_own (W : world) (v6 : bool) (ip : ipaddr) : Prop :=
  interface_of W 0 ip \/ exists n, the_names W n /\ address_of W 0 v6 n ip.
Definition the_ipv6 (W : world) (setting : option bool) (b : bool) : Prop :=
  match setting with
  | Some x => b = x
  | None =>
      match w_sys6 W 0 with
      | Some x => b = x
      | None => (exists ip, interface_of W 0 ip) /\ (b = true <-> exists ip, interface_of W 0 ip /\ In ":"%char (ntoa ip))
                \/ (forall ip, ~ interface_of W 0 ip) /\ (b = true <-> exists ip, the_own W true ip /\ In ":"%char (ntoa ip))
      end
  end.
(** IPv6 addresses are asked for: if it is to be used, and while one finds out from the own addresses if it is. *)
Definition asked6 (W : world) (setting : option bool) (v6 : bool) : Prop :=
  the_ipv6 W setting v6
  \/ v6 = true /\ setting = None /\ w_sys6 W 0 = None /\ forall ip, ~ interface_of W 0 ip.
(** The same for a changing world: [b] was found out at most five minutes ago, by answers got in whatever way. *)
Definition auto_perm (W : world) (T : Z -> Prop) (t : Z) (n : name) (b : bool) : Prop :=
  recent T (fun t0 => detected W T (fun _ _ _ => True) t0 b) t
  \/ b = true /\ w_sys6 W t = None /\ recent T (fun t0 => forall ip, ~ interface_of W t0 ip) t
     /\ exists L, recent T (fun t0 => own_names W T t0 L) t /\ In n L.
(** Times between two questions. *)
Definition spaced {Q} (l : list (Z * Q)) : Prop :=
  forall l1 l2 l3 t1 t2 q, l = l1 ++ (t1, q) :: l2 ++ (t2, q) :: l3 -> t1 + 300 <= t2.
