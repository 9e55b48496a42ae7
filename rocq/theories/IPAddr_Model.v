(** Model of fail2ban/server/ipdns.py: IPAddr, IPAddrSet, FileIPAddrSet, DNSUtils.textToIp.

    Not modelled: the network calls behind DNSUtils (getaddrinfo, gethostbyaddr and the caches of
    their answers) - the answer to a name is an argument [resolve]; __add__/__radd__, __lt__,
    hexdump of other families, getHost. *)
From Verif Require Import Base Text Regex.

(** ** The system's inet_pton and inet_ntop (called at ipdns.py:413 and :579; no line of /repo).
    Addresses are numbers; glibc's rules are followed: an octet has no leading zero, a group has
    one to four hexadecimal digits, "::" stands for at least one group. *)
Definition read_octet (t : text) : option Z :=
  if forallb is_digit t then
    match t with
    | c :: _ :: _ => if eqb c "0"%char then None
                     else match read 10 t with Some v => if v <=? 255 then Some v else None | None => None end
    | _ => match read 10 t with Some v => if v <=? 255 then Some v else None | None => None end
    end
  else None.
Definition pton4 (s : text) : option Z :=
  match split "."%char s with
  | [a; b; c; d] =>
      match read_octet a, read_octet b, read_octet c, read_octet d with
      | Some a, Some b, Some c, Some d => Some (((a * 256 + b) * 256 + c) * 256 + d)
      | _, _, _, _ => None
      end
  | _ => None
  end.
Definition octets (a : Z) : list Z := [a / 16777216 mod 256; a / 65536 mod 256; a / 256 mod 256; a mod 256].
Definition ntop4 (a : Z) : text := join (tx ".") (map dec (octets a)).

Definition read_group (t : text) : option Z :=
  if Nat.leb (length t) 4 then read 16 t else None.

(** the tokens between the colons; [acc] the groups so far, [mark] where "::" stood *)
Fixpoint groups6 (toks : list text) (acc : list Z) (mark : option nat) : option (list Z * option nat) :=
  match toks with
  | [] => None
  | [t] => match read_group t with
           | Some v => Some (acc ++ [v], mark)
           | None => match pton4 t with
                     | Some a => Some (acc ++ [a / 65536; a mod 65536], mark)
                     | None => None
                     end
           end
  | [[]; []] => match mark with None => Some (acc, Some (length acc)) | Some _ => None end
  | [] :: r => match mark with None => groups6 r acc (Some (length acc)) | Some _ => None end
  | t :: r => match read_group t with Some v => groups6 r (acc ++ [v]) mark | None => None end
  end.
Definition expand6 (g : list Z) (mark : option nat) : option (list Z) :=
  match mark with
  | None => if Nat.eqb (length g) 8 then Some g else None
  | Some k => if Nat.leb (length g) 7 then Some (firstn k g ++ repeat 0 (8 - length g) ++ skipn k g) else None
  end.
Definition pton6 (s : text) : option Z :=
  let body := match s with
              | c :: r => if eqb c ":"%char
                          then match r with d :: _ => if eqb d ":"%char then Some r else None | [] => None end
                          else Some s
              | [] => Some s
              end in
  match body with
  | None => None
  | Some b => match groups6 (split ":"%char b) [] None with
              | Some (g, mark) => option_map (value 65536) (expand6 g mark)
              | None => None
              end
  end.

(** the longest run of zero groups, the first one if there are several: (begin, length) *)
Fixpoint zero_run (l : list Z) : nat := match l with 0 :: r => S (zero_run r) | _ => O end.
Fixpoint best_run (l : list Z) (i : nat) : nat * nat :=
  match l with
  | [] => (i, O)
  | x :: r => let '(b, n) := best_run r (S i) in
              if Nat.leb n (zero_run l) then (i, zero_run l) else (b, n)
  end.
Definition groups (a : Z) : list Z := map (fun k => a / 65536 ^ k mod 65536) [7; 6; 5; 4; 3; 2; 1; 0].
Definition hex (n : Z) : text := show 16 n.
Definition ntop6 (a : Z) : text :=
  let g := groups a in
  let '(b, n) := best_run g 0 in
  if Nat.leb 2 n then
    let tail := if Nat.eqb b 0 && (Nat.eqb n 6 || (Nat.eqb n 5 && (nth 5 g 0 =? 65535)))
                then map hex (firstn (6 - n) (skipn n g)) ++ [ntop4 (a mod 4294967296)]
                else map hex (skipn (b + n) g) in
    join (tx ":") (map hex (firstn b g)) ++ tx "::" ++ join (tx ":") tail
  else join (tx ":") (map hex g).

(** ** IPAddr *)
Inductive family := FUnspec | FRaw | F4 | F6.
Definition family_eqb (a b : family) : bool :=
  match a, b with FUnspec, FUnspec | FRaw, FRaw | F4, F4 | F6, F6 => true | _, _ => false end.
#[export] Instance EqB_family : EqB family.
Proof. refine {| eqb := family_eqb |}. intros [| | |] [| | |]; cbn; split; congruence. Defined.

Record ipaddr := mkIp { i_fam : family; i_addr : Z; i_plen : Z; i_raw : text }.

(** the second argument of IPAddr(): CIDR_RAW, CIDR_UNSPEC, a family, a prefix length (338-344) *)
Inductive cidr := CUnspec | CRaw | CFam (v6 : bool) | CLen (n : Z).
Definition cidr_eqb (a b : cidr) : bool :=
  match a, b with
  | CUnspec, CUnspec | CRaw, CRaw => true
  | CFam x, CFam y => Bool.eqb x y
  | CLen x, CLen y => x =? y
  | _, _ => false
  end.
#[export] Instance EqB_cidr : EqB cidr.
Proof.
  refine {| eqb := cidr_eqb |}. intros [| |x|x] [| |y|y]; cbn; split; try congruence; intros E.
  - now apply Bool.eqb_prop in E as ->.
  - injection E as ->. apply Bool.eqb_reflx.
  - now apply Z.eqb_eq in E as ->.
  - injection E as ->. apply Z.eqb_refl.
Defined.

Definition full4 : Z := 4294967295.
Definition full6 : Z := 340282366920938463463374607431768211455.
(** ipdns.py:426, 438, 633, 635 *)
Definition net_mask (full n : Z) : Z := Z.lnot (Z.shiftr full n).

(** ipdns.py:697 IP6_4COMPAT = IPAddr("::ffff:0:0", 96) *)
Definition ip6_4compat : ipaddr := mkIp F6 281470681743360 96 (tx "::ffff:0:0").

(** ipdns.py:619-639 isInNet(net), net a single IPAddr that is no name *)
Definition in_net_num (ip net : ipaddr) : bool :=
  if negb (eqb (i_fam ip) (i_fam net)) then false
  else match i_fam ip with
       | F4 => Z.land (i_addr ip) (net_mask full4 (i_plen net)) =? i_addr net
       | F6 => Z.land (i_addr ip) (net_mask full6 (i_plen net)) =? i_addr net
       | _ => false
       end.

(** ipdns.py:395-448 __init *)
Definition ip_init (s : text) (c : cidr) : ipaddr :=
  match c with
  | CRaw => mkIp FRaw 0 0 s
  | _ =>
      let try4 := match c with CFam v6 => negb v6 | _ => true end in
      let try6 := match c with CFam v6 => v6 | _ => true end in
      match (if try4 then pton4 s else None) with
      | Some a =>
          match c with
          | CLen n => mkIp F4 (Z.land a (net_mask full4 n)) n s
          | _ => mkIp F4 a 32 s
          end
      | None =>
          match (if try6 then pton6 s else None) with
          | Some a =>
              match c with
              | CLen n => mkIp F6 (Z.land a (net_mask full6 n)) n s
              | _ => let ip := mkIp F6 a 128 s in
                     if in_net_num ip ip6_4compat then mkIp F4 (Z.land a 4294967295) 32 s else ip
              end
          | None => mkIp FUnspec 0 0 s
          end
      end
  end.

(** ipdns.py:323-328.  The look-behind of IP_6_RE always holds: each repetition ends in a colon. *)
Definition rdigit : re := RChr is_digit.
Definition rhex : re := RChr (fun c => match digit_val c with Some _ => true | None => false end).
Definition ip4_re : re := RCat (rrep 3 0 (RCat (rrep 1 2 rdigit) (rchar "."))) (rrep 1 2 rdigit).
Definition ip6_re : re :=
  RCat (rrep 1 6 (RAlt (RCat (rrep 1 3 rhex) (RCat (rchar ":") (ropt (rchar ":")))) (rchar ":")))
       (RAlt (rrep 1 3 rhex) (rchar ":")).
Definition ip_re : re := RAlt ip4_re ip6_re.

(** a Python "$" also matches before a newline at the end *)
Definition newline : ascii := ascii_of_nat 10.
Definition chomp (s : text) : text :=
  match rev s with c :: r => if eqb c newline then rev r else s | [] => s end.

(** ipdns.py:650-660, MAP_ADDR2MASKPLEN *)
Definition mask_step (st : Z * dict Z Z) (i : Z) : Z * dict Z Z :=
  let '(m, d) := st in
  let m := Z.lor m (Z.shiftl 1 i) in
  let d := if i <? 32 then dset (Z.lxor m full4) (32 - 1 - i) d else d in
  (m, dset (Z.lxor m full6) (128 - 1 - i) d).
Definition mask_map : dict Z Z :=
  snd (fold_left mask_step (map Z.of_nat (seq 0 128)) (0, [(full6, 128); (full4, 32); (0, 0)])).
(** ipdns.py:664-681 masktoplen(mask) = IPAddr(mask).maskplen; None is the ValueError.  The mask
    matched ip_re: it has no bracket and no slash, so IPAddr() does not rewrite it. *)
Definition masktoplen (mask : text) : option Z := dget (i_addr (ip_init mask CUnspec)) mask_map.

(** ipdns.py:373-393 __wrap_ipstr; None is the ValueError of a mask that is none *)
Definition wrap_ipstr (s : text) : option (text * cidr) :=
  let s := match s with
           | c :: ((_ :: _ :: _) as r) =>
               if eqb c "["%char && eqb (last r "x"%char) "]"%char then removelast r else s
           | _ => s
           end in
  match split "/"%char s with
  | [a; b0] =>
      let b := chomp b0 in
      if matches ip_re a then
        if negb (eqb b []) && forallb is_digit b then
          match read 10 b with Some n => Some (a, CLen n) | None => Some (s, CUnspec) end
        else if matches ip_re b then option_map (fun n => (a, CLen n)) (masktoplen b)
        else Some (s, CUnspec)
      else Some (s, CUnspec)
  | _ => Some (s, CUnspec)
  end.

(** ipdns.py:346-371 __new__ without the cache *)
Definition ip_new (s : text) (c : cidr) : option ipaddr :=
  match c with
  | CUnspec => match wrap_ipstr s with
               | Some (s', c') => Some (ip_init s' c')
               | None => None
               end
  | _ => Some (ip_init s c)
  end.

(** ipdns.py:346-371 with the cache of objects.  Entries that expire or are evicted are not
    modelled: they only make the answer be computed again. *)
Definition icache := dict (text * cidr) ipaddr.
Definition ip_new_cached (s : text) (c : cidr) (ch : icache) : icache * option ipaddr :=
  match c with
  | CRaw => (ch, Some (ip_init s c))
  | _ =>
      match dget (s, c) ch with
      | Some ip => (ch, Some ip)
      | None =>
          let wrapped := match c with CUnspec => wrap_ipstr s | _ => Some (s, c) end in
          match wrapped with
          | None => (ch, None)
          | Some (s', c') =>
              let again := match c, c' with
                           | CUnspec, CUnspec => None
                           | CUnspec, _ => dget (s', c') ch
                           | _, _ => None
                           end in
              match again with
              | Some ip => (ch, Some ip)
              | None => let ip := ip_init s' c' in (dset (s', c') ip ch, Some ip)
              end
          end
      end
  end.

(** ipdns.py:558-579 ntoa, also the text that is hashed (541-543) *)
Definition ntoa (ip : ipaddr) : text :=
  match i_fam ip with
  | F4 => ntop4 (i_addr ip) ++ (if negb (i_plen ip =? 0) && (i_plen ip <? 32) then tx "/" ++ dec (i_plen ip) else [])
  | F6 => ntop6 (i_addr ip) ++ (if negb (i_plen ip =? 0) && (i_plen ip <? 128) then tx "/" ++ dec (i_plen ip) else [])
  | _ => i_raw ip
  end.

(** ipdns.py:506-518 __eq__ of two IPAddr *)
Definition ip_eq (a b : ipaddr) : bool :=
  if negb (eqb (i_fam a) (i_fam b)) then false
  else match i_fam a with
       | FUnspec => eqb (i_raw a) (i_raw b)
       | _ => (i_addr a =? i_addr b) && (i_plen a =? i_plen b)
       end.

(** ipdns.py:494-504 *)
Definition is_valid (ip : ipaddr) : bool := negb (eqb (i_fam ip) FUnspec).
Definition is_single (ip : ipaddr) : bool :=
  match i_fam ip with F4 => i_plen ip =? 32 | F6 => i_plen ip =? 128 | _ => false end.

(** hex digits of a number, [n] of them ("%032x") *)
Definition nibbles (n : nat) (a : Z) : list Z := map (fun k => a / 16 ^ Z.of_nat k mod 16) (rev (seq 0 n)).
(** ipdns.py:581-600 getPTR() *)
Definition get_ptr (ip : ipaddr) (suffix : option text) : text :=
  match i_fam ip with
  | F4 => join (tx ".") (rev (split "."%char (ntoa ip)))
          ++ tx "." ++ match suffix with Some s => s | None => tx "in-addr.arpa." end
  | F6 => join (tx ".") (rev (map (fun d => [digit_char d]) (nibbles 32 (i_addr ip))))
          ++ tx "." ++ match suffix with Some s => s | None => tx "ip6.arpa." end
  | _ => []
  end.

(** ** Sets.  A Python set finds an element by its hash, here the text, and __eq__. *)
Definition set_mem (ip : ipaddr) (l : list ipaddr) : bool :=
  existsb (fun x => eqb (ntoa x) (ntoa ip) && ip_eq ip x) l.
Definition set_add (ip : ipaddr) (l : list ipaddr) : list ipaddr := if set_mem ip l then l else l ++ [ip].

(** ipdns.py:619-639 isInNet(net) of an IPAddr [net]; names are resolved *)
Definition is_in_net (resolve : text -> list ipaddr) (ip net : ipaddr) : bool :=
  if negb (is_valid net) && negb (eqb (i_raw net) []) then set_mem ip (resolve (i_raw net))
  else in_net_num ip net.
(** ipdns.py:641-644 net.contains(ip) *)
Definition contains (resolve : text -> list ipaddr) (net ip : ipaddr) : bool := ip_eq ip net || is_in_net resolve ip net.

(** ipdns.py:700-737 IPAddrSet *)
Record ipset := mkIpset { s_items : list ipaddr; s_subnets : Z }.
Definition ipset_of (ips : list ipaddr) : ipset :=
  mkIpset (fold_left (fun l ip => set_add ip l) ips [])
          (fold_left (fun n ip => if is_single ip then n else n + 1) ips 0).
Definition ipset_add (ip : ipaddr) (s : ipset) : ipset :=
  mkIpset (set_add ip (s_items s)) (if is_single ip then s_subnets s else Z.lor (s_subnets s) 1).
Definition ipset_mem (resolve : text -> list ipaddr) (ip : ipaddr) (s : ipset) : bool :=
  set_mem ip (s_items s) || (negb (s_subnets s =? 0) && existsb (fun n => contains resolve n ip) (s_items s)).

(** ** FileIPAddrSet, ipdns.py:740-813.  The file at a moment: its stats and what reading gives;
    no stats: stat() fails; no contents: open() or the parsing fails. *)
Record fileset := mkFs { f_set : ipset; f_next : Z; f_stats : option (Z * Z * Z) }.
Definition fs_init : fileset := mkFs (mkIpset [] 0) 0 None.
Record file_now := mkFile { fn_stats : option (Z * Z * Z); fn_ips : option (list ipaddr) }.
(** ipdns.py:768-798 load() at time [tm] *)
Definition fs_load (tm : Z) (f : file_now) (s : fileset) : fileset :=
  if tm <=? f_next s then s
  else match fn_stats f with
       | None => mkFs (f_set s) (tm + 1 + 60) (f_stats s)
       | Some st =>
           if eqb (f_stats s) (Some st) then mkFs (f_set s) (tm + 1) (f_stats s)
           else match fn_ips f with
                | None => mkFs (f_set s) (tm + 1 + 60) (Some st)
                | Some ips => mkFs (ipset_of ips) (tm + 1) (Some st)
                end
       end.
(** ipdns.py:808-813 *)
Definition fs_mem (resolve : text -> list ipaddr) (tm : Z) (f : file_now) (ip : ipaddr) (s : fileset) : fileset * bool :=
  let s := fs_load tm f s in (s, ipset_mem resolve ip (f_set s)).

(** ** ipdns.py:683-693 searchIP: the text of the address without brackets *)
Definition strip_brackets (s : text) : text :=
  let s := match s with c :: r => if eqb c "["%char then r else s | [] => s end in
  match rev s with c :: r => if eqb c "]"%char then rev r else s | [] => s end.
Definition search_ip (s : text) : option text :=
  let s := chomp s in
  if matches ip4_re s then Some s
  else let t := strip_brackets s in if matches ip6_re t then Some t else None.

(** ipdns.py:131-152 textToIp; the second part tells whether the resolver was asked *)
Inductive usedns := DnsYes | DnsWarn | DnsNo | DnsRaw.
Definition text_to_ip (resolve : text -> list ipaddr) (s : text) (u : usedns) : list ipaddr * bool :=
  let plain := match search_ip s with
               | Some t => match ip_new t CUnspec with
                           | Some ip => if is_valid ip then [ip] else []
                           | None => []
                           end
               | None => []
               end in
  match u, plain with
  | (DnsYes | DnsWarn), [] => (resolve s, true)
  | _, _ => (plain, false)
  end.

Definition ids (l : list ipaddr) : list text := map ntoa l.
Example ip_demo1 : option_map ntoa (ip_new (tx "192.0.2.77/24") CUnspec) = Some (tx "192.0.2.0/24"). Proof. vm_compute. reflexivity. Qed.
Example ip_demo2 : option_map ntoa (ip_new (tx "[2001:DB8:0:0::0001]") CUnspec) = Some (tx "2001:db8::1"). Proof. vm_compute. reflexivity. Qed.
Example ip_demo3 : option_map ntoa (ip_new (tx "::ffff:192.0.2.1") CUnspec) = Some (tx "192.0.2.1"). Proof. vm_compute. reflexivity. Qed.
Example ip_demo4 : option_map ntoa (ip_new (tx "2001:db8::ffff/ffff:ffff::") CUnspec) = Some (tx "2001:db8::/32"). Proof. vm_compute. reflexivity. Qed.
Example ip_demo5 : option_map ntoa (ip_new (tx "192.0.2.1/255.0.255.0") CUnspec) = None. Proof. vm_compute. reflexivity. Qed.
