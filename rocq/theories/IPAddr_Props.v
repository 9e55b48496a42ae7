(** Properties C30-C33 and C56: addresses, networks, sets of them. *)
From Verif Require Import Base Text Regex IPAddr_Model IPAddr_Spec IPAddr_Proofs IPAddr_Proofs2.
Require Import ZifyBool ZifyNat.

Definition no_names (_ : text) : list ipaddr := [].

Lemma octet_div p q r t : octet p -> octet q -> octet r -> octet t -> octets (quad p q r t) = [p; q; r; t] /\ 0 <= quad p q r t < 2 ^ 32.
Proof.
  unfold octet, quad, octets. intros. split; [|change (2 ^ 32) with 4294967296; lia].
  repeat f_equal; Z.div_mod_to_equations; lia.
Qed.
Lemma ntop4_quad p q r t : octet p -> octet q -> octet r -> octet t -> ntop4 (quad p q r t) = dotted p q r t.
Proof. intros. unfold ntop4. destruct (octet_div p q r t) as [-> _]; auto. Qed.

Local Ltac calc := repeat match goal with |- _ /\ _ => split; [vm_compute; reflexivity|] end; vm_compute; reflexivity.

(** ** C30 *)
(** Whatever texts the address and the network were made from: the address is in the network if
    and only if it is of the same family and among the addresses the network holds. *)
Theorem C30_in_net resolve s c ip t d net :
  sane_cidr c -> sane_cidr d -> ip_new s c = Some ip -> ip_new t d = Some net -> is_ip net ->
  is_in_net resolve ip net = true <-> holds net (i_fam ip) (i_addr ip).
Proof.
  intros Sc Sd Ei En I. apply new_proper in En; [|exact Sd]. unfold is_in_net.
  replace (is_valid net) with true by (unfold is_valid; destruct I as [-> | ->]; reflexivity). cbn [negb andb]. now apply in_net_holds.
Qed.
(** The network kept for an address with a prefix length is the one the address lies in, and
    begins at a multiple of its size. *)
Theorem C30_net_address s n net a : 0 <= n -> ip_new s (CLen n) = Some net -> is_ip net ->
  pton4 s = Some a \/ (pton4 s = None /\ pton6 s = Some a) ->
  i_plen net = n /\ holds net (i_fam net) a /\ (net_size (i_fam net) n | i_addr net).
Proof.
  intros N E I A. unfold ip_new, ip_init in E. destruct A as [A|[A B]]; rewrite A in E; [|rewrite B in E]; injection E as <-; cbn [i_plen i_fam i_addr].
  - rewrite land4 by exact N. pose proof (size_pos F4 n). split; [reflexivity|]. split; [|exists (a / net_size F4 n); lia].
    split; [reflexivity|]. cbn [i_addr i_plen]. pose proof (Z.div_mod a (net_size F4 n) ltac:(lia)). pose proof (Z.mod_pos_bound a (net_size F4 n)). lia.
  - rewrite land6 by exact N. pose proof (size_pos F6 n). split; [reflexivity|]. split; [|exists (a / net_size F6 n); lia].
    split; [reflexivity|]. cbn [i_addr i_plen]. pose proof (Z.div_mod a (net_size F6 n) ltac:(lia)). pose proof (Z.mod_pos_bound a (net_size F6 n)). lia.
Qed.
Lemma prefix_holds f n x y s ip : f = F4 \/ f = F6 -> 0 <= n <= width f -> i_fam ip = f -> i_addr ip = x ->
  holds (mkIp f (y / net_size f n * net_size f n) n s) (i_fam ip) (i_addr ip) <-> same_prefix f n x y.
Proof.
  intros F N <- <-. unfold holds, same_prefix. cbn [i_fam i_addr i_plen]. set (g := i_fam ip) in *. set (x := i_addr ip).
  replace (2 ^ (width g - n)) with (net_size g n) by (unfold net_size; f_equal; lia). pose proof (size_pos g n) as S.
  pose proof (Z.div_mod x (net_size g n) ltac:(lia)). pose proof (Z.mod_pos_bound x (net_size g n)).
  split.
  - intros [_ B]. symmetry. apply Z.div_unique with (x - y / net_size g n * net_size g n); lia.
  - intros E. split; [reflexivity|]. rewrite <- E. lia.
Qed.
(** a.b.c.d is in e.f.g.h/n if and only if the first n bits are the same. *)
Theorem C30_prefix resolve a b c d e f g h n : octet a -> octet b -> octet c -> octet d -> octet e -> octet f -> octet g -> octet h -> 0 <= n <= 32 ->
  exists ip net, ip_new (dotted a b c d) CUnspec = Some ip /\ ip_new (dotted e f g h ++ tx "/" ++ dec n) CUnspec = Some net /\
  (is_in_net resolve ip net = true <-> same_prefix F4 n (quad a b c d) (quad e f g h)).
Proof.
  intros Oa Ob Oc Od Oe Of Og Oh N. rewrite <- !ntop4_quad by assumption.
  destruct (octet_div a b c d Oa Ob Oc Od) as [_ R1]. destruct (octet_div e f g h Oe Of Og Oh) as [_ R2].
  unfold ip_new. rewrite wrap_plain by apply plain4. rewrite wrap_len by (try apply plain4; try apply ip4_matches; lia).
  unfold ip_init. rewrite !pton4_ntop4 by assumption. do 2 eexists. split; [reflexivity|]. split; [reflexivity|].
  rewrite land4 by lia. unfold is_in_net, is_valid. cbn [i_fam]. replace (negb (eqb F4 FUnspec)) with true by reflexivity. cbn [negb andb].
  rewrite in_net_holds.
  - apply prefix_holds; cbn; auto.
  - pose proof (masked_proper F4 (quad e f g h) n (or_introl eq_refl) R2 ltac:(lia)) as M. intros _. cbn [i_fam i_addr i_plen]. intuition lia.
  - left. reflexivity.
Qed.
(** The same for IPv6, in any spelling of the two addresses. *)
Theorem C30_prefix6 resolve s t x y n : pton4 s = None -> pton6 s = Some x -> ~ mapped x ->
  pton4 t = None -> pton6 t = Some y -> 0 <= n <= 128 ->
  is_in_net resolve (ip_init s CUnspec) (ip_init t (CLen n)) = true <-> same_prefix F6 n x y.
Proof.
  intros S4 S6 M T4 T6 N. pose proof (pton6_range _ _ S6). pose proof (pton6_range _ _ T6) as R2. unfold ip_init. rewrite S4, S6, T4, T6.
  destruct (in_net_num _ _) eqn:C; [apply compat_mapped in C; contradiction|].
  rewrite land6 by lia. unfold is_in_net, is_valid. cbn [i_fam]. replace (negb (eqb F6 FUnspec)) with true by reflexivity. cbn [negb andb].
  rewrite in_net_holds.
  - apply prefix_holds; cbn; auto.
  - pose proof (masked_proper F6 y n (or_intror eq_refl) R2 ltac:(lia)) as P. intros _. cbn [i_fam i_addr i_plen]. intuition lia.
  - right. reflexivity.
Qed.
(** An address is in a name if and only if it is one of the addresses of the name. *)
Theorem C30_name resolve ip net : is_ip ip -> i_fam net = FUnspec -> i_raw net <> [] ->
  is_in_net resolve ip net = true <-> exists r, In r (resolve (i_raw net)) /\ same_ip ip r.
Proof.
  intros I F N. unfold is_in_net, is_valid. rewrite F. replace (eqb (i_raw net) []) with false by (symmetry; now apply eqb_neq).
  replace (eqb FUnspec FUnspec) with true by reflexivity. cbn [negb andb]. unfold set_mem. rewrite existsb_exists. split.
  - intros (r & Ir & E). apply andb_true_iff in E as [_ E]. exists r. split; [exact Ir|].
    apply ip_eq_same; [|exact E|]; destruct I as [X|X]; rewrite X; discriminate.
  - intros (r & Ir & E1 & E2 & E3 & _). exists r. split; [exact Ir|]. apply andb_true_iff. split.
    + replace (ntoa r) with (ntoa ip) by (apply same_ntoa; auto; destruct I; auto). apply eqb_refl.
    + unfold ip_eq. rewrite <- E1, <- E2, <- E3, eqb_refl, !Z.eqb_refl. cbn [negb]. destruct I as [-> | ->]; reflexivity.
Qed.
(** e.f.g.h/p.q.r.t, with the netmask of the prefix length n, is e.f.g.h/n; four numbers that are
    no netmask are refused. *)
Theorem C30_mask e f g h p q r t : octet e -> octet f -> octet g -> octet h -> octet p -> octet q -> octet r -> octet t ->
  (forall n, 0 <= n <= 32 -> quad p q r t = 2 ^ 32 - 2 ^ (32 - n) ->
     ip_new (dotted e f g h ++ tx "/" ++ dotted p q r t) CUnspec = ip_new (dotted e f g h ++ tx "/" ++ dec n) CUnspec) /\
  ((forall n, 0 <= n <= 32 -> quad p q r t <> 2 ^ 32 - 2 ^ (32 - n)) ->
     ip_new (dotted e f g h ++ tx "/" ++ dotted p q r t) CUnspec = None).
Proof.
  intros Oe Of Og Oh Op Oq Or Ot. rewrite <- !ntop4_quad by assumption. destruct (octet_div p q r t Op Oq Or Ot) as [_ R]. set (a := quad e f g h). set (m := quad p q r t) in *.
  assert (W : wrap_ipstr (ntop4 a ++ tx "/" ++ ntop4 m) = option_map (fun n => (ntop4 a, CLen n)) (dget m mask_map)).
  { rewrite wrap_slash by apply plain4. rewrite !ip4_matches, masktoplen4 by exact R.
    replace (forallb is_digit (ntop4 m)) with false; [now rewrite andb_false_r|]. symmetry. apply not_true_is_false. intros X.
    rewrite forallb_forall in X. specialize (X _ (ntop4_dot m)). discriminate. }
  split.
  - intros n N E. unfold ip_new. rewrite W, wrap_len by (try apply plain4; try apply ip4_matches; lia).
    replace (dget m mask_map) with (Some n); [reflexivity|]. symmetry. apply mask_map_spec; auto.
  - intros N. unfold ip_new. rewrite W. destruct (dget m mask_map) as [n|] eqn:D; [|reflexivity]. exfalso.
    apply mask_map_spec in D as [D1 D2]; [|exact R]. exact (N n D1 D2).
Qed.
(** A netmask with a number above 255 is not refused: the network becomes 0.0.0.0/0. *)
Theorem C30_bad_mask_refuted : exists s ip net, ip_new (tx "192.0.2.1") CUnspec = Some ip /\ s = tx "10.0.0.0/255.255.256.0" /\
  ip_new s CUnspec = Some net /\ is_in_net no_names ip net = true.
Proof. exists (tx "10.0.0.0/255.255.256.0"). do 2 eexists. calc. Qed.
(** Only the first address of a network is compared: a wider network counts as in a narrower one. *)
Theorem C30_wider_refuted : exists big small a, ip_new (tx "10.0.0.0/8") CUnspec = Some big /\ ip_new (tx "10.0.0.0/24") CUnspec = Some small /\
  is_in_net no_names big small = true /\ holds big F4 a /\ ~ holds small F4 a.
Proof.
  do 2 eexists. exists (quad 10 1 2 3). split; [vm_compute; reflexivity|]. split; [vm_compute; reflexivity|]. split; [vm_compute; reflexivity|].
  split; [split; [reflexivity|vm_compute; split; congruence]|]. intros [_ [_ X]]. vm_compute in X. discriminate.
Qed.
Example C30_demo : exists ip net, ip_new (tx "2001:db8::5") CUnspec = Some ip /\ ip_new (tx "2001:DB8:0::/33") CUnspec = Some net /\
  is_ip net /\ is_in_net no_names ip net = true /\ sane_cidr CUnspec.
Proof. do 2 eexists. split; [vm_compute; reflexivity|]. split; [vm_compute; reflexivity|]. split; [right; reflexivity|]. split; [vm_compute; reflexivity|exact I]. Qed.
Example C30_demo2 : octet 203 /\ same_prefix F4 25 (quad 203 0 113 130) (quad 203 0 113 200) /\ ~ same_prefix F4 26 (quad 203 0 113 130) (quad 203 0 113 200)
  /\ pton6 (tx "fe80::1") <> None /\ pton4 (tx "fe80::1") = None.
Proof. unfold octet, same_prefix. vm_compute. repeat split; congruence. Qed.
Example C30_demo3 : quad 255 255 254 0 = 2 ^ 32 - 2 ^ (32 - 23) /\ ip_new (tx "192.0.2.1/255.0.255.0") CUnspec = None.
Proof. split; vm_compute; reflexivity. Qed.

(** ** C31 *)
(** The text of an address or network, read again, is the same address or network - but for the
    cases that follow. *)
Theorem C31_text_round_trip s c ip : sane_cidr c -> ip_new s c = Some ip -> is_ip ip -> 0 < i_plen ip <= width (i_fam ip) ->
  (i_fam ip = F6 -> i_plen ip = 128 -> ~ mapped (i_addr ip)) ->
  (i_fam ip = F6 -> i_plen ip < 128 -> ~ written_dotted (i_addr ip)) ->
  exists ip', ip_new (ntoa ip) CUnspec = Some ip' /\ same_ip ip' ip.
Proof.
  intros S E I L M W. apply new_proper in E; [|exact S].
  destruct I as [F|F]; rewrite F in L; cbn [width] in L.
  - destruct (reparse4 ip E F L) as (ip' & E1 & E2 & E3 & E4). exists ip'. split; [exact E1|]. unfold same_ip. rewrite F. repeat split; auto.
    intros N. destruct N. now left.
  - destruct (reparse6 ip E F L (M F) (W F)) as (ip' & E1 & E2 & E3 & E4). exists ip'. split; [exact E1|]. unfold same_ip. rewrite F. repeat split; auto.
    intros N. destruct N. now right.
Qed.
(** In particular the texts "a.b.c.d" and "a.b.c.d/n" of an address on the network boundary are kept. *)
Theorem C31_canonical_text a b c d n ip : octet a -> octet b -> octet c -> octet d -> 0 < n < 32 -> (2 ^ (32 - n) | quad a b c d) ->
  (ip_new (dotted a b c d) CUnspec = Some ip -> ntoa ip = dotted a b c d) /\
  (ip_new (dotted a b c d ++ tx "/" ++ dec n) CUnspec = Some ip -> ntoa ip = dotted a b c d ++ tx "/" ++ dec n).
Proof.
  intros Oa Ob Oc Od N D. rewrite <- !ntop4_quad by assumption. destruct (octet_div a b c d Oa Ob Oc Od) as [_ R]. unfold ip_new. split; intros E.
  - rewrite wrap_plain in E by apply plain4. unfold ip_init in E. rewrite pton4_ntop4 in E by exact R. injection E as <-. unfold ntoa. cbn [i_fam i_addr i_plen].
    apply app_nil_r.
  - rewrite wrap_len in E by (try apply plain4; try apply ip4_matches; lia). unfold ip_init in E. rewrite pton4_ntop4 in E by exact R. injection E as <-. unfold ntoa. cbn [i_fam i_addr i_plen].
    replace (negb (n =? 0) && (n <? 32)) with true by lia. rewrite land4 by lia. rewrite masked_self; [reflexivity|].
    unfold net_size. cbn [width]. rewrite Z.max_r by lia. apply Z.mod_divide in D; [exact D|]. apply Z.pow_nonzero; lia.
Qed.
Lemma sfx_inj a b n m w : plain a -> plain b -> 0 < n <= w -> 0 < m <= w ->
  a ++ (if negb (n =? 0) && (n <? w) then tx "/" ++ dec n else []) = b ++ (if negb (m =? 0) && (m <? w) then tx "/" ++ dec m else []) -> a = b /\ n = m.
Proof.
  intros (_ & A & _) (_ & B & _) N M E. apply (f_equal (split "/"%char)) in E.
  replace (negb (n =? 0)) with true in E by lia. replace (negb (m =? 0)) with true in E by lia. cbn [andb] in E.
  assert (Sp : forall x k, ~ In "/"%char x -> 0 < k -> split "/"%char (x ++ tx "/" ++ dec k) = [x; dec k]).
  { intros x k X K. cbn [tx list_ascii_of_string app]. rewrite split_app by exact X. rewrite split_free; [reflexivity|]. apply dec_free; [lia|reflexivity]. }
  destruct (Z.ltb_spec n w), (Z.ltb_spec m w); rewrite ?app_nil_r, ?Sp, ?split_free in E by (assumption || lia); try discriminate.
  - injection E as E1 E2. split; [exact E1|]. apply show_inj in E2; lia.
  - injection E as E1. split; [exact E1|lia].
Qed.
Lemma ntoa_colon4 a : i_fam a = F4 -> ~ (0 <= i_plen a /\ In ":"%char (ntoa a)).
Proof.
  intros F [P I]. unfold ntoa in I. rewrite F in I. apply in_app_iff in I as [I|I]; [apply ntop4_chars in I as [I|I]; discriminate|].
  destruct (_ && _); [|destruct I]. apply in_app_iff in I as [[I|[]]|I]; [discriminate|]. apply dec_free in I; auto.
Qed.
Lemma ntoa_colon6 a : i_fam a = F6 -> In ":"%char (ntoa a).
Proof. intros F. unfold ntoa. rewrite F. apply in_or_app. left. apply ntop6_colon. Qed.
(** Two addresses or networks are equal exactly if they have the same text (so equal ones have the
    same hash). *)
Theorem C31_equal_text s c a t d b : sane_cidr c -> sane_cidr d -> ip_new s c = Some a -> ip_new t d = Some b ->
  is_ip a -> is_ip b -> 0 < i_plen a <= width (i_fam a) -> 0 < i_plen b <= width (i_fam b) ->
  ip_eq a b = true <-> ntoa a = ntoa b.
Proof.
  intros Sc Sd Ea Eb Ia Ib La Lb. apply new_proper in Ea; [|exact Sc]. apply new_proper in Eb; [|exact Sd]. split; intros E.
  - apply ip_eq_same in E; [|destruct Ia as [X|X]; rewrite X; discriminate|destruct Ia as [X|X]; rewrite X; discriminate].
    destruct E as (E1 & E2 & E3 & _). apply same_ntoa; auto. destruct Ia; auto.
  - destruct (Ea Ia) as (Ra & _). destruct (Eb Ib) as (Rb & _).
    destruct Ia as [Fa|Fa], Ib as [Fb|Fb]; rewrite ?Fa, ?Fb in *; cbn [width] in *.
    + unfold ntoa in E. rewrite Fa, Fb in E. apply sfx_inj in E as [E1 E2]; try apply plain4; try lia.
      apply (f_equal pton4) in E1. rewrite !pton4_ntop4 in E1 by assumption. injection E1 as E1. unfold ip_eq. rewrite Fa, Fb, E1, E2, !Z.eqb_refl. reflexivity.
    + exfalso. apply (ntoa_colon4 a Fa). split; [lia|]. rewrite E. now apply ntoa_colon6.
    + exfalso. apply (ntoa_colon4 b Fb). split; [lia|]. rewrite <- E. now apply ntoa_colon6.
    + unfold ntoa in E. rewrite Fa, Fb in E. apply sfx_inj in E as [E1 E2]; try apply plain6; try lia.
      apply (f_equal pton6) in E1. rewrite !pton6_ntop6 in E1 by assumption. injection E1 as E1. unfold ip_eq. rewrite Fa, Fb, E1, E2, !Z.eqb_refl. reflexivity.
Qed.
(** Brackets do not matter, and ::ffff:a.b.c.d is a.b.c.d. *)
Theorem C31_brackets s : s <> [] -> ~ In "["%char s -> ~ In "/"%char s -> ~ In newline s -> ip_new (tx "[" ++ s ++ tx "]") CUnspec = ip_new s CUnspec.
Proof. intros N A B C. unfold ip_new. rewrite wrap_brackets, wrap_plain by (unfold plain; auto). reflexivity. Qed.
Theorem C31_mapped a b c d : octet a -> octet b -> octet c -> octet d ->
  exists x y, ip_new (tx "::ffff:" ++ dotted a b c d) CUnspec = Some x /\ ip_new (dotted a b c d) CUnspec = Some y /\
  same_ip x y /\ ntoa x = dotted a b c d.
Proof.
  intros Oa Ob Oc Od. rewrite <- !ntop4_quad by assumption. destruct (octet_div a b c d Oa Ob Oc Od) as [_ R]. set (q := quad a b c d) in *.
  destruct (plain4 q) as (P1 & P2 & P3).
  assert (P : plain (tx "::ffff:" ++ ntop4 q)).
  { repeat split; rewrite in_app_iff; intros [I|I]; try contradiction; vm_compute in I; repeat (destruct I as [I|I]; [discriminate|]); destruct I. }
  unfold ip_new. rewrite !wrap_plain by (exact P || apply plain4). unfold ip_init. rewrite pton4_ntop4 by exact R.
  rewrite (pton4_chars (tx "::ffff:" ++ ntop4 q) ":"%char); [|left; reflexivity|reflexivity|discriminate].
  assert (Ex : forall x y, option_map (value 65536) (expand6 [65535; x; y] (Some 0%nat)) = Some (65535 * 2 ^ 32 + (x * 65536 + y))).
  { intros x y. change (expand6 [65535; x; y] (Some 0%nat)) with (Some [0; 0; 0; 0; 0; 65535; x; y]). cbn [option_map]. f_equal. unfold value. cbn [fold_left].
    change (2 ^ 32) with 4294967296. lia. }
  assert (G : pton6 (tx "::ffff:" ++ ntop4 q) = Some (65535 * 2 ^ 32 + q)).
  { assert (Two : forall r, pton6 (":"%char :: ":"%char :: r) = match groups6 (split ":"%char ([] ++ ":"%char :: r)) [] None with
              | Some (g, mark) => option_map (value 65536) (expand6 g mark)
              | None => None
              end) by reflexivity.
    change (tx "::ffff:" ++ ntop4 q) with (":"%char :: ":"%char :: (tx "ffff" ++ ":"%char :: ntop4 q)). rewrite Two. clear Two.
    rewrite split_app by (intros []). rewrite split_app by (vm_compute; intuition discriminate). rewrite split_free.
    - cbn [groups6]. change (read_group (tx "ffff")) with (Some 65535). rewrite read_group_dot by apply ntop4_dot. rewrite pton4_ntop4 by exact R.
      cbn [app length]. cbn [tx list_ascii_of_string]. cbv beta iota. assert (Nn : forall (A : Type) (x : A), match ntop4 q with [] | _ => x end = x) by (intros; now destruct (ntop4 q)). rewrite ?Nn. clear Nn. rewrite Ex. f_equal. pose proof (Z.div_mod q 65536 ltac:(lia)). lia.
    - intros I. apply ntop4_chars in I as [I|I]; discriminate. }
  rewrite G. change (2 ^ 32) with 4294967296 in R. replace (in_net_num _ _) with true by (symmetry; apply compat_mapped; unfold mapped; change (2 ^ 32) with 4294967296; lia).
  do 2 eexists. split; [reflexivity|]. split; [reflexivity|]. rewrite land_low by lia.
  assert (Q : (65535 * 2 ^ 32 + q) mod 2 ^ 32 = q) by (rewrite Z.add_comm, Z_mod_plus_full; apply Z.mod_small; change (2 ^ 32) with 4294967296; lia).
  rewrite Q. split.
  - unfold same_ip. cbn [i_fam i_addr i_plen]. repeat split. intros X. destruct X. now left.
  - unfold ntoa. cbn [i_fam i_addr i_plen]. apply app_nil_r.
Qed.
(** The round trip fails for a prefix length of 0 and one above the width... *)
Theorem C31_zero_refuted : exists ip ip', ip_new (tx "0.0.0.0/0") CUnspec = Some ip /\ ip_new (ntoa ip) CUnspec = Some ip' /\ i_plen ip = 0 /\ i_plen ip' = 32.
Proof. do 2 eexists. calc. Qed.
Theorem C31_over_refuted : exists ip ip', ip_new (tx "192.0.2.1/33") CUnspec = Some ip /\ ip_new (ntoa ip) CUnspec = Some ip' /\ ip_eq ip ip' = false /\ ntoa ip = ntoa ip'.
Proof. do 2 eexists. calc. Qed.
(** ... for an IPv4-mapped address given with a prefix length of 128 ... *)
Theorem C31_mapped_refuted : exists ip ip', ip_new (tx "::ffff:192.0.2.1") (CLen 128) = Some ip /\ ip_new (ntoa ip) CUnspec = Some ip' /\ i_fam ip = F6 /\ i_fam ip' = F4.
Proof. do 2 eexists. calc. Qed.
(** ... and for an IPv6 network whose text ends in dotted form: it is read as a name. *)
Theorem C31_dotted_refuted : exists ip ip', ip_new (tx "::102:300/120") CUnspec = Some ip /\ ntoa ip = tx "::1.2.3.0/120" /\
  ip_new (ntoa ip) CUnspec = Some ip' /\ is_valid ip' = false.
Proof. do 2 eexists. calc. Qed.
(** Two identifiers that are no addresses always compare equal, whatever their texts. *)
Theorem C31_raw_equal_refuted : forall s t, ip_eq (ip_init s CRaw) (ip_init t CRaw) = true.
Proof. reflexivity. Qed.
Lemma wrap_brackets_inv s : (exists t, s = tx "[" ++ t ++ tx "]" /\ t <> [] /\
     match s with c :: ((_ :: _ :: _) as r) => if eqb c "["%char && eqb (last r "x"%char) "]"%char then removelast r else s | _ => s end = t) \/
  match s with c :: ((_ :: _ :: _) as r) => if eqb c "["%char && eqb (last r "x"%char) "]"%char then removelast r else s | _ => s end = s.
Proof.
  destruct s as [|c [|c1 [|c2 r]]]; try (right; reflexivity).
  destruct (eqb_spec c "["%char) as [->|]; [|right; reflexivity]. destruct (eqb_spec (last (c1 :: c2 :: r) "x"%char) "]"%char) as [L|]; [|right; reflexivity].
  left. exists (removelast (c1 :: c2 :: r)). split; [|split; [discriminate|reflexivity]].
  change (tx "[" ++ removelast (c1 :: c2 :: r) ++ tx "]") with ("["%char :: (removelast (c1 :: c2 :: r) ++ ["]"%char])).
  f_equal. rewrite <- L. apply app_removelast_last. discriminate.
Qed.
Lemma wrap_again s t : ~ double_bracket s -> wrap_ipstr s = Some (t, CUnspec) -> wrap_ipstr t = Some (t, CUnspec).
Proof.
  intros D E.
  destruct (wrap_brackets_inv s) as [(u & Es & Nu & Eu)|Es].
  - destruct (wrap_brackets_inv u) as [(v & Ev & _)|Eu2].
    + destruct D. exists v. rewrite Es, Ev. cbn. f_equal. f_equal. now rewrite <- app_assoc.
    + assert (W : wrap_ipstr s = wrap_ipstr u).
      { unfold wrap_ipstr. cbv zeta. match goal with |- context [split _ ?t] => replace t with u by (symmetry; exact Eu) end.
        match goal with |- _ = match split _ ?t with _ => _ end => replace t with u by (symmetry; exact Eu2) end. reflexivity. }
      rewrite W in E. assert (t = u); [|subst; exact E].
      revert E. unfold wrap_ipstr. cbv zeta. match goal with |- context [split _ ?t] => replace t with u by (symmetry; exact Eu2) end.
      destruct (split "/"%char u) as [|a [|b [|]]]; try congruence. destruct (matches ip_re a); [|congruence].
      destruct (_ && _); [destruct (read _ _); congruence|]. destruct (matches ip_re _); [|congruence]. destruct (masktoplen _); cbn; congruence.
  - assert (t = s); [|subst; exact E].
    revert E. unfold wrap_ipstr. cbv zeta. match goal with |- context [split _ ?t] => replace t with s by (symmetry; exact Es) end.
    destruct (split "/"%char s) as [|a [|b [|]]]; try congruence. destruct (matches ip_re a); [|congruence].
    destruct (_ && _); [destruct (read _ _); congruence|]. destruct (matches ip_re _); [|congruence]. destruct (masktoplen _); cbn; congruence.
Qed.
Definition coherent (ch : icache) : Prop := forall s c ip, dget (s, c) ch = Some ip -> ip_new s c = Some ip.
Lemma cached_ok s c ch : coherent ch -> ~ double_bracket s -> snd (ip_new_cached s c ch) = ip_new s c /\ coherent (fst (ip_new_cached s c ch)).
Proof.
  intros H D.
  assert (Main : forall c, c <> CRaw -> snd (ip_new_cached s c ch) = ip_new s c /\ coherent (fst (ip_new_cached s c ch))).
  { clear c. intros c N. assert (E : ip_new_cached s c ch = match dget (s, c) ch with
      | Some ip => (ch, Some ip)
      | None =>
          let wrapped := match c with CUnspec => wrap_ipstr s | _ => Some (s, c) end in
          match wrapped with
          | None => (ch, None)
          | Some (s', c') =>
              let again := match c, c' with
                           | CUnspec, CUnspec => None
                           | CUnspec, _ => dget (s', c') ch
                           | _, _ => None
                           end in
              match again with
              | Some ip => (ch, Some ip)
              | None => let ip := ip_init s' c' in (dset (s', c') ip ch, Some ip)
              end
          end
      end) by (destruct c; [reflexivity|congruence|reflexivity|reflexivity]). rewrite E. clear E.
    destruct (dget (s, c) ch) as [ip|] eqn:G; [split; [symmetry; now apply H|exact H]|]. cbv zeta.
    destruct (match c with CUnspec => wrap_ipstr s | _ => Some (s, c) end) as [[s' c']|] eqn:W.
    - assert (V : ip_new s c = Some (ip_init s' c') /\ ip_new s' c' = Some (ip_init s' c')).
      { destruct c; try (injection W as <- <-; split; reflexivity). unfold ip_new at 1. rewrite W. split; [reflexivity|].
        destruct c'; try reflexivity. unfold ip_new. now rewrite (wrap_again s s'). }
      destruct V as [V1 V2].
      assert (Put : coherent (dset (s', c') (ip_init s' c') ch)).
      { intros s0 c0 ip0 X. destruct (eqb_spec (s0, c0) (s', c')) as [Q|Q].
        - rewrite Q, dget_dset_same in X. injection X as <-. injection Q as -> ->. exact V2.
        - rewrite dget_dset_other in X by exact Q. now apply H. }
      destruct (match c with CUnspec => match c' with CUnspec => None | _ => dget (s', c') ch end | _ => None end) as [ip|] eqn:A.
      + split; [|exact H]. destruct c; try discriminate. destruct c'; try discriminate; apply H in A; cbn [snd]; congruence.
      + cbn [fst snd]. split; [now symmetry|exact Put].
    - destruct c; try discriminate. split; [|exact H]. unfold ip_new. now rewrite W. }
  destruct c; try (apply Main; discriminate). split; [reflexivity|exact H].
Qed.
(** The cache of address objects never changes an answer, whatever was asked before, as long as no
    text was in double brackets. *)
Theorem C31_cache h s c : (forall x, In x h -> ~ double_bracket (fst x)) -> ~ double_bracket s ->
  snd (ip_new_cached s c (cache_run h)) = ip_new s c.
Proof.
  intros H D. apply cached_ok; [|exact D]. unfold cache_run.
  assert (G : forall ch, coherent ch -> coherent (fold_left (fun ch x => fst (ip_new_cached (fst x) (snd x) ch)) h ch)).
  { induction h as [|x h IH]; intros ch C; [exact C|]. cbn [fold_left]. apply IH; [intros; apply H; now right|]. apply cached_ok; [exact C|]. apply H. now left. }
  apply G. intros ? ? ? X. discriminate.
Qed.
Theorem C31_cache_refuted : exists h s a b, snd (ip_new_cached s CUnspec (cache_run h)) = Some a /\ ip_new s CUnspec = Some b /\
  s = tx "[::1]" /\ is_valid b = true /\ is_valid a = false.
Proof. exists [(tx "[[::1]]", CUnspec)], (tx "[::1]"). do 2 eexists. calc. Qed.
Example C31_demo : exists ip, ip_new (tx "2001:db8:0:0:1::/80") CUnspec = Some ip /\ is_ip ip /\ 0 < i_plen ip <= width (i_fam ip) /\ ~ mapped (i_addr ip) /\ ~ written_dotted (i_addr ip)
  /\ ntoa ip = tx "2001:db8:0:0:1::/80".
Proof.
  eexists. split; [vm_compute; reflexivity|]. split; [right; reflexivity|]. split; [cbn; lia|].
  unfold mapped, written_dotted. cbn [i_addr]. change (2 ^ 32) with 4294967296. split; [lia|]. split; [lia|vm_compute; reflexivity].
Qed.
Example C31_demo2 : ~ double_bracket (tx "[::1]") /\ cache_run [(tx "[::1]", CUnspec); (tx "10.0.0.0/8", CUnspec)] <> [].
Proof. split; [intros [t E]; discriminate E|vm_compute; discriminate]. Qed.
Example C31_demo3 : octet 192 /\ 0 < 24 < 32 /\ (2 ^ (32 - 24) | quad 192 0 2 0). Proof. unfold octet. repeat split; try lia. exists 12582914. reflexivity. Qed.

(** ** C32 *)
Lemma get_ptr4 x r sfx : 0 <= x < 2 ^ 32 -> get_ptr (mkIp F4 x 32 r) sfx =
  join (tx ".") (map dec (rev (octets x))) ++ tx "." ++ match sfx with Some s => s | None => tx "in-addr.arpa." end.
Proof.
  intros R. unfold get_ptr, ntoa. cbn [i_fam i_addr i_plen]. replace (negb (32 =? 0) && (32 <? 32)) with false by reflexivity. rewrite app_nil_r, split_ntop4, map_rev. reflexivity.
Qed.
(** The PTR name of a.b.c.d is d.c.b.a.in-addr.arpa. *)
Theorem C32_ptr4 a b c d ip sfx : octet a -> octet b -> octet c -> octet d -> ip_new (dotted a b c d) CUnspec = Some ip ->
  get_ptr ip None = dotted d c b a ++ tx ".in-addr.arpa." /\ get_ptr ip (Some sfx) = dotted d c b a ++ tx "." ++ sfx.
Proof.
  intros Oa Ob Oc Od E. rewrite <- ntop4_quad in E by assumption. destruct (octet_div a b c d Oa Ob Oc Od) as [O R]. unfold ip_new in E. rewrite wrap_plain in E by apply plain4.
  unfold ip_init in E. rewrite pton4_ntop4 in E by exact R. injection E as <-. rewrite !get_ptr4, O by exact R. split; reflexivity.
Qed.
(** The PTR name of an IPv6 address has its 32 hexadecimal digits, the last one first. *)
Theorem C32_ptr6 ip sfx : i_fam ip = F6 ->
  get_ptr ip None = concat (map (fun k => [digit_char (nibble (i_addr ip) k); "."%char]) (seq 0 32)) ++ tx "ip6.arpa." /\
  get_ptr ip (Some sfx) = concat (map (fun k => [digit_char (nibble (i_addr ip) k); "."%char]) (seq 0 32)) ++ sfx.
Proof.
  intros F. unfold get_ptr. rewrite F. unfold nibbles. rewrite map_rev, map_rev, rev_involutive, map_map.
  assert (J : forall l (g : nat -> ascii), l <> [] -> join (tx ".") (map (fun k => [g k]) l) ++ tx "." = concat (map (fun k => [g k; "."%char]) l)).
  { intros l g. induction l as [|x l IH]; [congruence|]. intros _. destruct l as [|y l]; [reflexivity|]. change (map (fun k => [g k]) (x :: y :: l)) with ([g x] :: map (fun k => [g k]) (y :: l)).
    rewrite join_cons by discriminate. rewrite <- !app_assoc. rewrite IH by discriminate. reflexivity. }
  fold (nibble (i_addr ip)).
  specialize (J (seq 0 32) (fun k => digit_char (nibble (i_addr ip) k)) ltac:(discriminate)).
  split; rewrite !app_assoc; f_equal; exact J.
Qed.
Lemma nibbles_value x : 0 <= x < 2 ^ 128 -> value 16 (nibbles 32 x) = x.
Proof.
  intros R.
  assert (G : forall n, value 16 (nibbles n x) = x mod 16 ^ Z.of_nat n).
  { induction n as [|n IH]; [cbn; now rewrite Z.mod_1_r|].
    unfold nibbles. assert (Sq : rev (seq 0 (S n)) = n :: rev (seq 0 n)) by (rewrite seq_S, rev_app_distr; reflexivity). rewrite Sq. cbn [map].
    change (value 16 (x / 16 ^ Z.of_nat n mod 16 :: nibbles n x) = x mod 16 ^ Z.of_nat (S n)).
    assert (Vc : forall l d, value 16 (d :: l) = d * 16 ^ Z.of_nat (length l) + value 16 l).
    { clear. induction l as [|y l IH] using rev_ind; intros d; [unfold value; cbn; lia|]. change (d :: l ++ [y]) with ((d :: l) ++ [y]).
      rewrite !value_snoc, IH, app_length. cbn [length]. rewrite Nat2Z.inj_add, Z.pow_add_r by lia. lia. }
    replace (value 16 (x / 16 ^ Z.of_nat n mod 16 :: nibbles n x)) with (x / 16 ^ Z.of_nat n mod 16 * 16 ^ Z.of_nat n + value 16 (nibbles n x)).
    - rewrite IH. rewrite Nat2Z.inj_succ, Z.pow_succ_r by lia. rewrite (Z.mul_comm 16). rewrite Z.rem_mul_r by (try apply Z.pow_nonzero; lia). lia.
    - rewrite Vc.
      assert (Ln : length (nibbles n x) = n) by (unfold nibbles; rewrite map_length, rev_length; apply seq_length). rewrite Ln. reflexivity. }
  rewrite G. apply Z.mod_small. exact R.
Qed.
(** Two single addresses with the same PTR name are the same address. *)
Theorem C32_ptr_injective s c a t d b : sane_cidr c -> sane_cidr d -> ip_new s c = Some a -> ip_new t d = Some b ->
  is_single a = true -> is_single b = true -> get_ptr a None = get_ptr b None -> same_ip a b.
Proof.
  intros Sc Sd Ea Eb Ia Ib E. apply new_proper in Ea; [|exact Sc]. apply new_proper in Eb; [|exact Sd].
  assert (Fin : forall f, i_fam a = f -> i_fam b = f -> f = F4 \/ f = F6 -> i_addr a = i_addr b -> same_ip a b).
  { intros f Fa Fb Ff Q. unfold same_ip, is_ip, is_single in *. rewrite Fa, Fb in *. repeat split; auto; [destruct Ff as [-> | ->]; lia|]. intros X. contradiction. }
  unfold is_single in Ia, Ib. destruct (i_fam a) eqn:Fa; try discriminate; destruct (i_fam b) eqn:Fb; try discriminate.
  - apply (Fin F4); auto. destruct (Ea (or_introl Fa)) as (Ra & _). destruct (Eb (or_introl Fb)) as (Rb & _). rewrite Fa in Ra. rewrite Fb in Rb. cbn [width] in *.
    destruct a as [fa xa pa ra], b as [fb xb pb rb]. cbn [i_fam i_addr i_plen] in *. subst fa fb. apply Z.eqb_eq in Ia, Ib. subst pa pb.
    rewrite !get_ptr4 in E by assumption. apply app_inv_tail in E. apply (f_equal (split "."%char)) in E.
    assert (Sp : forall l, l <> [] -> (forall n, In n l -> 0 <= n) -> split "."%char (join (tx ".") (map dec l)) = map dec l).
    { intros l Nl Hl. apply split_join; [destruct l; [congruence|discriminate]|]. apply Forall_forall. intros u Iu. apply in_map_iff in Iu as (n & <- & In'). apply dec_free; auto. }
    assert (Pos : forall z n, In n (rev (octets z)) -> 0 <= n).
    { intros z n I. apply in_rev in I. cbn in I. destruct I as [<-|[<-|[<-|[<-|[]]]]]; apply Z.mod_pos_bound; lia. }
    rewrite !Sp in E by (discriminate || apply Pos). rewrite !map_rev in E. apply (f_equal (@rev text)) in E. rewrite !rev_involutive in E.
    apply (f_equal (join (tx "."))) in E. change (ntop4 xa = ntop4 xb) in E. apply (f_equal pton4) in E. rewrite !pton4_ntop4 in E by assumption. congruence.
  - exfalso. unfold get_ptr in E. rewrite Fa, Fb in E. apply (f_equal (fun l => nth 6 (rev l) "x"%char)) in E. rewrite !rev_app_distr in E. cbn in E. discriminate.
  - exfalso. unfold get_ptr in E. rewrite Fa, Fb in E. apply (f_equal (fun l => nth 6 (rev l) "x"%char)) in E. rewrite !rev_app_distr in E. cbn in E. discriminate.
  - apply (Fin F6); auto. destruct (Ea (or_intror Fa)) as (Ra & _). destruct (Eb (or_intror Fb)) as (Rb & _). rewrite Fa in Ra. rewrite Fb in Rb. cbn [width] in *.
    destruct (C32_ptr6 a [] Fa) as [Ga _]. destruct (C32_ptr6 b [] Fb) as [Gb _]. rewrite Ga, Gb in E. apply app_inv_tail in E.
    assert (Q : map (nibble (i_addr a)) (seq 0 32) = map (nibble (i_addr b)) (seq 0 32)).
    { revert E. generalize (seq 0 32). induction l as [|k l IH]; [reflexivity|]. cbn [map concat app]. intros E. injection E as E1 E2. f_equal; [|now apply IH].
      apply (f_equal digit_val) in E1. rewrite !digit_val_char in E1 by (unfold nibble; pose proof (Z.mod_pos_bound (i_addr a / 16 ^ Z.of_nat k) 16); pose proof (Z.mod_pos_bound (i_addr b / 16 ^ Z.of_nat k) 16); lia). congruence. }
    rewrite <- (nibbles_value _ Ra), <- (nibbles_value _ Rb). f_equal. unfold nibbles. rewrite !map_rev. f_equal. exact Q.
Qed.
(** The PTR name of an IPv4 network has the prefix length in it. *)
Theorem C32_subnet_refuted : exists ip, ip_new (tx "192.0.2.0/24") CUnspec = Some ip /\ get_ptr ip None = tx "0/24.2.0.192.in-addr.arpa.".
Proof. eexists. calc. Qed.
Example C32_demo : exists ip, ip_new (tx "2001:db8::1") CUnspec = Some ip /\ is_single ip = true /\
  get_ptr ip None = tx "1.0.0.0.0.0.0.0.0.0.0.0.0.0.0.0.0.0.0.0.0.0.0.0.8.b.d.0.1.0.0.2.ip6.arpa.".
Proof. eexists. calc. Qed.
Example C32_demo2 : octet 192 /\ exists ip, ip_new (tx "192.0.2.77") CUnspec = Some ip /\ get_ptr ip None = tx "77.2.0.192.in-addr.arpa.".
Proof. split; [unfold octet; lia|]. eexists. calc. Qed.

(** ** C33 *)
Lemma made_proper ip : made ip -> proper ip. Proof. intros (s & c & S & E). eapply new_proper; eauto. Qed.
(** A single address is in the set if and only if something the set was given - by the last list
    or added since - contains it. *)
Theorem C33_member resolve ops ip : (forall n, In n (given ops) -> made n) -> is_single ip = true ->
  ipset_mem resolve ip (set_run ops) = true <-> exists n, In n (given ops) /\ contains resolve n ip = true.
Proof.
  intros Mk Sg. destruct (set_run_holds ops) as (H1 & H2 & H3 & H4). unfold ipset_mem. split.
  - intros E. apply orb_true_iff in E as [E|E].
    + apply existsb_exists in E as (x & I & E). apply andb_true_iff in E as [_ E]. exists x. split; [auto|]. unfold contains. now rewrite E.
    + apply andb_true_iff in E as [_ E]. apply existsb_exists in E as (x & I & E). exists x. auto.
  - intros (n & I & E). destruct (H2 n I) as (y & Iy & Ey & Eq). apply orb_true_iff.
    destruct (Z.eqb_spec (s_subnets (set_run ops)) 0) as [Z0|Z0].
    + left. apply existsb_exists. exists y. split; [exact Iy|].
      assert (Sn : is_single n = true).
      { destruct (is_single n) eqn:X; [reflexivity|]. exfalso. assert (s_subnets (set_run ops) <> 0); [|contradiction]. apply H4. eauto. }
      assert (Q : ip_eq ip n = true) by (apply (single_contains resolve); auto using made_proper).
      assert (Ip : i_fam ip = F4 \/ i_fam ip = F6) by (unfold is_single in Sg; destruct (i_fam ip); auto; discriminate).
      assert (In' : i_fam n = F4 \/ i_fam n = F6) by (unfold is_single in Sn; destruct (i_fam n); auto; discriminate).
      apply ip_eq_same in Q; [|destruct Ip as [X|X]; rewrite X; discriminate|destruct Ip as [X|X]; rewrite X; discriminate].
      apply ip_eq_same in Eq; [|destruct In' as [X|X]; rewrite X; discriminate|destruct In' as [X|X]; rewrite X; discriminate].
      destruct Q as (Q1 & Q2 & Q3 & _). destruct Eq as (R1 & R2 & R3 & _).
      apply andb_true_iff. split.
      * rewrite Ey. replace (ntoa n) with (ntoa ip) by (apply same_ntoa; auto; tauto). apply eqb_refl.
      * unfold ip_eq. rewrite <- R1, <- R2, <- R3, <- Q1, <- Q2, <- Q3, eqb_refl, !Z.eqb_refl. cbn [negb]. destruct Ip as [-> | ->]; reflexivity.
    + right. apply andb_true_iff. split; [reflexivity|]. apply existsb_exists. exists y. split; [exact Iy|]. eapply contains_key; eauto.
Qed.
(** With only addresses and networks in it: if and only if one of them holds the address. *)
Theorem C33_networks resolve ops ip : (forall n, In n (given ops) -> made n /\ is_ip n) -> is_single ip = true ->
  ipset_mem resolve ip (set_run ops) = true <-> exists n, In n (given ops) /\ holds n (i_fam ip) (i_addr ip).
Proof.
  intros Mk Sg. rewrite C33_member by (auto; intros n I; now apply Mk). split; intros (n & I & E); exists n; (split; [exact I|]); destruct (Mk n I) as [Mn In']; apply made_proper in Mn.
  - unfold contains in E. apply orb_true_iff in E as [E|E].
    + apply ip_eq_same in E; [|unfold is_single in Sg; destruct (i_fam ip); discriminate|unfold is_single in Sg; destruct (i_fam ip); discriminate].
      destruct E as (E1 & E2 & E3 & _). split; [now symmetry|]. rewrite E2. pose proof (size_pos (i_fam ip) (i_plen n)). lia.
    + unfold is_in_net in E. replace (is_valid n) with true in E by (unfold is_valid; destruct In' as [-> | ->]; reflexivity). cbn [negb andb] in E. now apply in_net_holds in E.
  - unfold contains. apply orb_true_iff. right. unfold is_in_net. replace (is_valid n) with true by (unfold is_valid; destruct In' as [-> | ->]; reflexivity). cbn [negb andb]. now apply in_net_holds.
Qed.
Definition fs_ok (h : list (Z * file_now)) (s : fileset) : Prop :=
  exists e, In e h /\ f_next s = fst e + 1 /\ f_stats s = fn_stats (snd e) /\ f_set s = ipset_of (file_ips (snd e)).
Lemma fs_load_ok h tm f s : (forall e, In e (h ++ [(tm, f)]) -> readable (snd e)) -> stats_tell (h ++ [(tm, f)]) ->
  (fs_ok h s \/ (h = [] /\ s = fs_init /\ 0 < tm)) -> fs_ok (h ++ [(tm, f)]) (fs_load tm f s) /\
  exists e, In e (h ++ [(tm, f)]) /\ tm - 1 <= fst e /\ f_set (fs_load tm f s) = ipset_of (file_ips (snd e)).
Proof.
  intros Rd St O. assert (L : In (tm, f) (h ++ [(tm, f)])) by (apply in_or_app; right; now left). pose proof (Rd _ L) as [R1 R2]. cbn [snd] in R1, R2.
  unfold fs_load. destruct (fn_stats f) as [st|] eqn:Est; [|congruence]. destruct (fn_ips f) as [ips|] eqn:Eip; [|congruence].
  assert (Fi : file_ips f = ips) by (unfold file_ips; now rewrite Eip).
  destruct O as [(e & I & N & T & S)|(-> & -> & Pos)].
  - assert (Ie : In e (h ++ [(tm, f)])) by (apply in_or_app; now left).
    destruct (Z.leb_spec tm (f_next s)).
    + split; [exists e; auto|]. exists e. repeat split; auto. lia.
    + destruct (eqb_spec (f_stats s) (Some st)) as [Q|Q].
      * assert (X : f_set s = ipset_of (file_ips f)).
        { rewrite S. f_equal. unfold file_ips. rewrite (St e (tm, f)); auto. cbn [snd]. congruence. }
        split; [exists (tm, f); cbn [fst snd f_next f_stats f_set]; repeat split; auto; congruence|].
        exists (tm, f). cbn [fst snd f_set]. repeat split; auto. lia.
      * split; [exists (tm, f); cbn [fst snd f_next f_stats f_set]; rewrite Fi; auto|]. exists (tm, f). cbn [fst snd f_set]. rewrite Fi. repeat split; auto. lia.
  - change (f_next fs_init) with 0. destruct (Z.leb_spec tm 0); [lia|]. change (f_stats fs_init) with (@None (Z * Z * Z)).
    replace (eqb (@None (Z * Z * Z)) (Some st)) with false by (symmetry; now apply eqb_neq).
    split; [exists (tm, f); cbn [fst snd f_next f_stats f_set]; rewrite Fi; auto|]. exists (tm, f). cbn [fst snd f_set]. rewrite Fi. repeat split; auto. lia.
Qed.
(** A set kept in a file, as long as the file can be read and its stats change with its contents:
    a check at time [tm] answers from contents the file had no earlier than a second before. *)
Theorem C33_file_fresh h tm f : times_grow 1 (h ++ [(tm, f)]) -> (forall e, In e (h ++ [(tm, f)]) -> readable (snd e)) -> stats_tell (h ++ [(tm, f)]) ->
  exists e, In e (h ++ [(tm, f)]) /\ tm - 1 <= fst e /\ f_set (fs_run (h ++ [(tm, f)])) = ipset_of (file_ips (snd e)).
Proof.
  intros T Rd St. unfold fs_run. rewrite fold_left_app. cbn [fold_left fst snd].
  assert (Tl : forall h' t0 e, 1 <= t0 -> times_grow t0 (h' ++ [e]) -> 0 < fst e).
  { induction h' as [|[x g] h' IH]; intros t0 [y g'] P G; cbn in G |- *; [lia|]. destruct G as [G1 G2]. apply IH in G2; [exact G2|lia]. }
  apply fs_load_ok; [exact Rd|exact St|].
  assert (G : forall h, times_grow 1 h -> (forall e, In e h -> readable (snd e)) -> stats_tell h -> fs_ok h (fold_left (fun s e => fs_load (fst e) (snd e) s) h fs_init) \/ h = []).
  { clear - Tl. induction h as [|[x g] h IH] using rev_ind; [auto|]. intros T Rd St. left. rewrite fold_left_app. cbn [fold_left fst snd].
    assert (T' : times_grow 1 h).
    { clear - T. revert T. generalize 1. induction h as [|[y k] h IH]; cbn; auto. intros z [A B]. auto. }
    apply fs_load_ok; [exact Rd|exact St|]. destruct IH as [IH| ->]; auto.
    - intros e I. apply Rd. apply in_or_app. now left.
    - intros e e' I I'. apply St; apply in_or_app; now left.
    - right. repeat split. cbn in T. lia. }
  destruct (G h) as [X| ->].
  - clear - T. revert T. generalize 1. induction h as [|[y k] h IH]; cbn; auto. intros z [A B]. auto.
  - intros e I. apply Rd. apply in_or_app. now left.
  - intros e e' I I'. apply St; apply in_or_app; now left.
  - left. exact X.
  - right. repeat split. cbn in T. lia.
Qed.
Definition one_ip (a : Z) : ipaddr := mkIp F4 a 32 [].
(** If reading fails once after the stats were seen, the new contents are not read until the file
    changes again, however late it is asked. *)
Theorem C33_failed_read_refuted : forall tm, 100 <= tm -> f_set (fs_run
   [(1, mkFile (Some (1, 1, 1)) (Some [one_ip 1])); (3, mkFile (Some (2, 2, 2)) None); (tm, mkFile (Some (2, 2, 2)) (Some [one_ip 2]))])
  = ipset_of [one_ip 1].
Proof.
  intros tm H. unfold fs_run. cbn [fold_left fst snd].
  change (fs_load 3 (mkFile (Some (2, 2, 2)) None) (fs_load 1 (mkFile (Some (1, 1, 1)) (Some [one_ip 1])) fs_init)) with (mkFs (ipset_of [one_ip 1]) 64 (Some (2, 2, 2))).
  unfold fs_load. cbn [f_next f_stats f_set fn_stats fn_ips]. destruct (Z.leb_spec tm 64); [lia|]. replace (eqb (Some (2, 2, 2)) (Some (2, 2, 2))) with true by reflexivity. reflexivity.
Qed.
Example C33_demo : exists a n, ip_new (tx "192.0.2.7") CUnspec = Some a /\ ip_new (tx "192.0.2.0/28") CUnspec = Some n /\ is_single a = true /\ made n /\ is_ip n /\
  ipset_mem no_names a (set_run [SSet []; SAdd n]) = true.
Proof.
  do 2 eexists. split; [vm_compute; reflexivity|]. split; [vm_compute; reflexivity|]. split; [reflexivity|]. split.
  - exists (tx "192.0.2.0/28"), CUnspec. split; [exact I|vm_compute; reflexivity].
  - split; [left; reflexivity|vm_compute; reflexivity].
Qed.
Example C33_demo2 : let h := [(5, mkFile (Some (1, 1, 1)) (Some [one_ip 1]))] in let e := (9, mkFile (Some (2, 1, 1)) (Some [one_ip 2])) in
  times_grow 1 (h ++ [e]) /\ (forall x, In x (h ++ [e]) -> readable (snd x)) /\ stats_tell (h ++ [e]) /\ s_items (f_set (fs_run (h ++ [e]))) = [one_ip 2].
Proof.
  cbn [app]. split; [cbn; lia|]. split; [|split].
  - intros x [<-|[<-|[]]]; split; discriminate.
  - intros x y [<-|[<-|[]]] [<-|[<-|[]]]; cbn; congruence.
  - vm_compute. reflexivity.
Qed.

(** ** C56 *)
(** The resolver is never asked if DNS is off. *)
Theorem C56_no_dns resolve s : snd (text_to_ip resolve s DnsNo) = false /\ snd (text_to_ip resolve s DnsRaw) = false.
Proof. split; reflexivity. Qed.
Lemma search4 a : search_ip (ntop4 a) = Some (ntop4 a).
Proof. unfold search_ip. rewrite chomp_id by apply plain4. now rewrite ip4_only. Qed.
Lemma strip6 a pre post : (pre = [] \/ pre = tx "[") -> (post = [] \/ post = tx "]") -> strip_brackets (pre ++ ntop6 a ++ post) = ntop6 a.
Proof.
  intros Hp Hq. unfold strip_brackets.
  assert (A : match pre ++ ntop6 a ++ post with c :: r => if eqb c "["%char then r else pre ++ ntop6 a ++ post | [] => pre ++ ntop6 a ++ post end = ntop6 a ++ post).
  { destruct Hp as [-> | ->]; [|reflexivity]. cbn [app]. destruct (ntop6 a) as [|c r] eqn:E; [pose proof (ntop6_colon a) as C; rewrite E in C; destruct C|]. cbn [app].
    destruct (eqb_spec c "["%char) as [->|]; [|reflexivity]. exfalso. destruct (plain6 a) as [P _]. apply P. rewrite E. now left. }
  lazymatch goal with |- match rev ?t with _ => _ end = _ => replace t with (ntop6 a ++ post) by (symmetry; exact A) end. cbv zeta. destruct Hq as [-> | ->].
  - rewrite app_nil_r. destruct (rev (ntop6 a)) as [|c r] eqn:E; [reflexivity|]. destruct (eqb_spec c "]"%char) as [->|]; [|reflexivity]. exfalso.
    assert (I : In "]"%char (ntop6 a)) by (rewrite in_rev, E; now left). apply ntop6_chars in I as [I|[I|I]]; [now apply I|discriminate|discriminate].
  - rewrite rev_app_distr. cbn [tx list_ascii_of_string rev app]. replace (eqb "]"%char "]"%char) with true by reflexivity. apply rev_involutive.
Qed.
Lemma search6 a pre post : dotted_form a = false -> (pre = [] \/ pre = tx "[") -> (post = [] \/ post = tx "]") -> search_ip (pre ++ ntop6 a ++ post) = Some (ntop6 a).
Proof.
  intros D Hp Hq. unfold search_ip. rewrite chomp_id.
  - replace (matches ip4_re (pre ++ ntop6 a ++ post)) with false.
    + rewrite strip6 by assumption. now rewrite ip6_only.
    + symmetry. apply not_true_is_false. intros M. apply (ip4_chars _ ":"%char) in M; [destruct M; discriminate|]. rewrite !in_app_iff. right. left. apply ntop6_colon.
  - destruct (plain6 a) as (_ & _ & P). rewrite !in_app_iff. intros [I|[I|I]]; [|contradiction|].
    + destruct Hp as [-> | ->]; [destruct I|]. destruct I as [I|[]]. discriminate.
    + destruct Hq as [-> | ->]; [destruct I|]. destruct I as [I|[]]. discriminate.
Qed.
(** The text of an IPv4 address gives that address alone, in every mode, and asks no one. *)
Theorem C56_plain4 resolve a b c d u : octet a -> octet b -> octet c -> octet d ->
  exists ip, ip_new (dotted a b c d) CUnspec = Some ip /\ i_fam ip = F4 /\ i_addr ip = quad a b c d /\ text_to_ip resolve (dotted a b c d) u = ([ip], false).
Proof.
  intros Oa Ob Oc Od. rewrite <- !ntop4_quad by assumption. destruct (octet_div a b c d Oa Ob Oc Od) as [_ R].
  unfold text_to_ip. rewrite search4. unfold ip_new. rewrite wrap_plain by apply plain4. unfold ip_init. rewrite pton4_ntop4 by exact R.
  eexists. split; [reflexivity|]. split; [reflexivity|]. split; [reflexivity|]. replace (is_valid _) with true by reflexivity. destruct u; reflexivity.
Qed.
(** The same for the text of an IPv6 address, with and without brackets. *)
Theorem C56_plain6 resolve x pre post u : 0 <= x < 2 ^ 128 -> ~ written_dotted x -> (pre = [] \/ pre = tx "[") -> (post = [] \/ post = tx "]") ->
  exists ip, ip_new (ntop6 x) CUnspec = Some ip /\ i_fam ip = F6 /\ i_addr ip = x /\ text_to_ip resolve (pre ++ ntop6 x ++ post) u = ([ip], false).
Proof.
  intros R W Hp Hq. assert (D : dotted_form x = false) by (destruct (dotted_form x) eqn:E; [apply dotted_written in E; [contradiction|exact R]|reflexivity]).
  unfold text_to_ip. rewrite search6 by assumption. unfold ip_new. rewrite wrap_plain by apply plain6. unfold ip_init. rewrite pton4_ntop6, pton6_ntop6 by exact R.
  destruct (in_net_num _ _) eqn:C; [apply compat_mapped in C; destruct W; right; exact C|].
  eexists. split; [reflexivity|]. split; [reflexivity|]. split; [reflexivity|]. replace (is_valid _) with true by reflexivity. destruct u; reflexivity.
Qed.
(** Whatever the text: what is returned without the resolver is at most one address, a valid one;
    the resolver is asked for exactly the given text, and only if there was none. *)
Theorem C56_answer resolve s u :
  let '(l, asked) := text_to_ip resolve s u in
  if asked then (u = DnsYes \/ u = DnsWarn) /\ l = resolve s /\ fst (text_to_ip resolve s DnsNo) = []
  else (length l <= 1)%nat /\ (forall ip, In ip l -> is_valid ip = true) /\ l = fst (text_to_ip resolve s DnsNo).
Proof.
  unfold text_to_ip. set (plain := match search_ip s with Some t => _ | None => [] end).
  assert (P : (length plain <= 1)%nat /\ (forall ip, In ip plain -> is_valid ip = true)).
  { subst plain. destruct (search_ip s) as [t|]; [|split; [cbn; lia|intros ? []]]. destruct (ip_new t CUnspec) as [ip|]; [|split; [cbn; lia|intros ? []]].
    destruct (is_valid ip) eqn:V; (split; [cbn; lia|]); [intros x [<-|[]]; exact V|intros ? []]. }
  destruct P as [P1 P2]. destruct u, plain as [|x plain]; cbn [fst]; auto.
Qed.
(** A text in dotted form inside an IPv6 address is not taken for an address but resolved. *)
Theorem C56_dotted_refuted : exists s ip, ip_new s CUnspec = Some ip /\ is_valid ip = true /\ forall resolve, text_to_ip resolve s DnsWarn = (resolve s, true).
Proof. exists (tx "::ffff:192.0.2.1"). eexists. split; [vm_compute; reflexivity|]. split; [reflexivity|]. intros resolve. vm_compute. reflexivity. Qed.
Example C56_demo : text_to_ip no_names (tx "[2001:db8::1]") DnsYes = ([mkIp F6 42540766411282592856903984951653826561 128 (tx "2001:db8::1")], false).
Proof. vm_compute. reflexivity. Qed.
Example C56_demo2 : 0 <= 42540766411282592856903984951653826561 < 2 ^ 128 /\ ~ written_dotted 42540766411282592856903984951653826561 /\ octet 7.
Proof. unfold written_dotted, octet. change (2 ^ 32) with 4294967296. change (2 ^ 128) with 340282366920938463463374607431768211456. lia. Qed.

Print Assumptions C30_in_net.
Print Assumptions C30_net_address.
Print Assumptions C30_prefix.
Print Assumptions C30_prefix6.
Print Assumptions C30_name.
Print Assumptions C30_mask.
Print Assumptions C30_bad_mask_refuted.
Print Assumptions C30_wider_refuted.
Print Assumptions C31_text_round_trip.
Print Assumptions C31_canonical_text.
Print Assumptions C31_equal_text.
Print Assumptions C31_brackets.
Print Assumptions C31_mapped.
Print Assumptions C31_zero_refuted.
Print Assumptions C31_over_refuted.
Print Assumptions C31_mapped_refuted.
Print Assumptions C31_dotted_refuted.
Print Assumptions C31_raw_equal_refuted.
Print Assumptions C31_cache.
Print Assumptions C31_cache_refuted.
Print Assumptions C32_ptr4.
Print Assumptions C32_ptr6.
Print Assumptions C32_ptr_injective.
Print Assumptions C32_subnet_refuted.
Print Assumptions C33_member.
Print Assumptions C33_networks.
Print Assumptions C33_file_fresh.
Print Assumptions C33_failed_read_refuted.
Print Assumptions C56_no_dns.
Print Assumptions C56_plain4.
Print Assumptions C56_plain6.
Print Assumptions C56_answer.
Print Assumptions C56_dotted_refuted.
