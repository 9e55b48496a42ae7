(** Specification vocabulary for addresses, independent of how the code computes. *)
From Verif Require Import Base Text IPAddr_Model.

(** The number of bits of an address. *)
Definition width (f : family) : Z := match f with F4 => 32 | F6 => 128 | _ => 0 end.
(** A network (or a single address) holds the addresses [a] with [lo <= a < lo + size]. *)
Definition net_size (f : family) (n : Z) : Z := 2 ^ Z.max 0 (width f - n).
Definition holds (net : ipaddr) (f : family) (a : Z) : Prop :=
  i_fam net = f /\ i_addr net <= a < i_addr net + net_size f (i_plen net).
(** The first [n] bits of two addresses agree. *)
Definition same_prefix (f : family) (n a b : Z) : Prop := a / 2 ^ (width f - n) = b / 2 ^ (width f - n).

Definition is_ip (ip : ipaddr) : Prop := i_fam ip = F4 \/ i_fam ip = F6.
(** A prefix length that is given is not negative. *)
Definition sane_cidr (c : cidr) : Prop := match c with CLen n => 0 <= n | _ => True end.

(** The usual texts. *)
Definition dotted (a b c d : Z) : text := join (tx ".") [dec a; dec b; dec c; dec d].
Definition octet (x : Z) : Prop := 0 <= x <= 255.
Definition quad (a b c d : Z) : Z := a * 16777216 + b * 65536 + c * 256 + d.

(** The IPv6 addresses that are written with an IPv4 address at the end. *)
Definition written_dotted (a : Z) : Prop :=
  65536 <= a < 2 ^ 32 \/ 65535 * 2 ^ 32 <= a < 65536 * 2 ^ 32.
(** The IPv6 addresses that stand for an IPv4 address, ::ffff:0:0/96 *)
Definition mapped (a : Z) : Prop := 65535 * 2 ^ 32 <= a < 65536 * 2 ^ 32.

(** Same address and prefix (or same name). *)
Definition same_ip (a b : ipaddr) : Prop :=
  i_fam a = i_fam b /\ i_addr a = i_addr b /\ i_plen a = i_plen b /\ (~ is_ip a -> i_raw a = i_raw b).

(** What a set was given: the last list it was set to and what was added since. *)
Inductive set_op := SSet (l : list ipaddr) | SAdd (ip : ipaddr).
Definition given_step (g : list ipaddr) (o : set_op) : list ipaddr :=
  match o with SSet l => l | SAdd ip => g ++ [ip] end.
Definition given (ops : list set_op) : list ipaddr := fold_left given_step ops [].
Definition set_step (s : ipset) (o : set_op) : ipset :=
  match o with SSet l => ipset_of l | SAdd ip => ipset_add ip s end.
Definition set_run (ops : list set_op) : ipset := fold_left set_step ops (mkIpset [] 0).

(** The checks of a file set: the time and the file at that time. *)
Definition fs_run (h : list (Z * file_now)) : fileset := fold_left (fun s e => fs_load (fst e) (snd e) s) h fs_init.
Fixpoint times_grow (t : Z) (h : list (Z * file_now)) : Prop :=
  match h with [] => True | (x, _) :: r => t <= x /\ times_grow x r end.

(** A text in two pairs of brackets. *)
Definition double_bracket (s : text) : Prop := exists t, s = tx "[[" ++ t ++ tx "]]".
(** The cache after the calls IPAddr(s, c) of a history. *)
Definition cache_run (h : list (text * cidr)) : icache :=
  fold_left (fun ch x => fst (ip_new_cached (fst x) (snd x) ch)) h [].

(** The hexadecimal digit number [k] of an address, from the right. *)
Definition nibble (x : Z) (k : nat) : Z := x / 16 ^ Z.of_nat k mod 16.

(** Files that never fail, and whose stats tell their contents. *)
Definition file_ips (f : file_now) : list ipaddr := match fn_ips f with Some l => l | None => [] end.
Definition readable (f : file_now) : Prop := fn_stats f <> None /\ fn_ips f <> None.
Definition stats_tell (h : list (Z * file_now)) : Prop :=
  forall e e', In e h -> In e' h -> fn_stats (snd e) = fn_stats (snd e') -> fn_ips (snd e) = fn_ips (snd e').

(** Something IPAddr() returned. *)
Definition made (ip : ipaddr) : Prop := exists s c, sane_cidr c /\ ip_new s c = Some ip.
