(** Names and addresses of hosts: C94 - C97. *)
From Coq Require Import ZifyBool ZifyNat.
From Verif Require Import Base Text IPAddr_Model Utils_Model Dns_Model Dns_Spec Dns_Proofs Dns_Proofs2 Dns_Proofs3 Dns_Proofs4.
Local Open Scope string_scope.
Local Open Scope list_scope.
Local Open Scope Z_scope.

(** At a moment of [ops] at which something was asked. *)
Definition moment (ops : list op) (t : Z) : Prop := In t (flat_map time_of ops).
Definition any_perm (t : Z) (n : name) (v6 : bool) : Prop := True.
Lemma moments (P : option bool -> Prop) all : forall l, incl l all -> (forall b, In (OSet b) l -> P b) -> Forall (op_ok (moment all) P) l.
Proof.
  induction l as [|o l IH]; intros I S; constructor.
  - split.
    + apply Forall_forall. intros t It. apply in_flat_map. exists o. split; [apply I; now left|exact It].
    + destruct o; auto. apply S. now left.
  - apply IH; [intros x Ix; apply I; now right|]. intros b Ib. apply S. now right.
Qed.
Lemma run_any W ops o : out_okay W (moment (ops ++ [o])) any_perm (dns_run W ops) o (snd (dns_step W (dns_run W ops) o)).
Proof.
  change (dns_run W ops) with (dns_from W dns_init ops). apply (run_okay W (moment (ops ++ [o])) any_perm (fun _ => True)) with (b := None); unfold any_perm; auto.
  - now repeat split.
  - apply moments; [apply incl_refl|auto].
Qed.
Lemma no_sets l : forallb (fun o => negb (sets o)) l = true -> forall b, ~ In (OSet b) l.
Proof. intros F b I. rewrite forallb_forall in F. apply F in I. discriminate. Qed.

(** ** C94: the addresses of a name and the name of an address *)
(** The answer is the set of the addresses the system's resolver gave for this very name, in one lookup less
    than five minutes ago, whatever else was asked. *)
Theorem C94_addresses W ops t n : exists l, snd (dns_step W (dns_run W ops) (ODns t n)) = RIps l
  /\ recent (moment (ops ++ [ODns t n])) (fun t0 => exists v6, set_of (address_of W t0 v6 (Some n)) l) t.
Proof.
  pose proof (run_any W ops (ODns t n)) as H. unfold out_okay, out_ok in H. destruct (snd (dns_step W (dns_run W ops) (ODns t n))) as [l|m|l|b|]; try contradiction.
  exists l. split; [reflexivity|]. apply recent_imp with (2 := H). intros t0 _ (v6 & _ & S). eauto.
Qed.
Theorem C94_reverse W ops t ip : exists n, snd (dns_step W (dns_run W ops) (OReverse t ip)) = RName n
  /\ recent (moment (ops ++ [OReverse t ip])) (fun t0 => n = w_reverse W t0 ip) t.
Proof.
  pose proof (run_any W ops (OReverse t ip)) as H. unfold out_okay, out_ok in H. destruct (snd (dns_step W (dns_run W ops) (OReverse t ip))) as [l|m|l|b|]; try contradiction. eauto.
Qed.
(** The text of a log line: what is an address (C56) is taken as it is, without a lookup and without a change; only a
    name is looked up, and only if the use of DNS is not switched off. *)
Theorem C94_text W s t a u r :
  (snd (text_to_ip r a u) = false -> dns_step W s (OText t a u) = (s, RIps (fst (text_to_ip r a u))))
  /\ (snd (text_to_ip r a u) = true -> (u = DnsYes \/ u = DnsWarn) /\ dns_step W s (OText t a u) = dns_step W s (ODns t a)).
Proof.
  cbn [dns_step]. unfold text_to_ips, text_to_ip. change (match search_ip a with Some t => _ | None => _ end) with (plain_ip a).
  destruct u, (plain_ip a) as [|x l]; cbn [fst snd]; (split; [first [reflexivity|discriminate]|]); try discriminate; auto.
Qed.
(** One question is asked the system at most once in five minutes, if the system tells whether it has IPv6: as
    long as nothing is forgotten by a reload, and while fewer than 997 questions were asked. *)
Theorem C94_once W ops : (forall t, w_sys6 W t <> None) -> forallb (fun o => negb (forgets o)) ops = true ->
  (List.length (d_asked (dns_run W ops)) < 997)%nat -> spaced (d_asked (dns_run W ops)).
Proof.
  intros Sy F L. apply inv_spaced. change (dns_run W ops) with (dns_from W dns_init ops) in *. apply o_run; auto. apply init_inv.
Qed.

Definition demo_world : world := mkWorld
  (fun t v6 n => if eqb n (tx "localhost") then Some [if v6 then tx "::1" else tx "127.0.0.1"]
                 else if eqb n (tx "box") then (if v6 then None else Some [tx "192.0.2.1"; tx "192.0.2.2"])
                 else if eqb n (tx "dyn.example.org") then Some (if v6 then [tx "2001:db8::7"] else if t <? 1000 then [tx "198.51.100.1"] else [tx "198.51.100.2"])
                 else None)
  (fun t ip => if eqb ip (tx "192.0.2.1") then Some (tx "box") else None)
  (fun t => Some (tx "box"))
  (fun t h => Some [tx ""; tx "www.example.org"; tx "box.example.org"])
  (fun t h => Some h)
  (fun t => Some [tx "127.0.0.1"; tx "192.0.2.1"; tx "fe80::1"])
  (fun t => Some true).
(** As long as it may be, the old answer is given; afterwards the new one. *)
Example C94_demo : let dyn := tx "dyn.example.org" in
  let ips o := match snd o with RIps l => map ntoa l | _ => [] end in
  ips (dns_step demo_world (dns_run demo_world [ODns 900 dyn; OSelf 950]) (ODns 1100 dyn)) = [tx "198.51.100.1"; tx "2001:db8::7"]
  /\ ips (dns_step demo_world (dns_run demo_world [ODns 900 dyn; OSelf 950; ODns 1100 dyn]) (ODns 1200 dyn)) = [tx "198.51.100.2"; tx "2001:db8::7"]
  /\ dns_step demo_world dns_init (OReverse 5 (tx "192.0.2.1")) = (fst (dns_step demo_world dns_init (OReverse 5 (tx "192.0.2.1"))), RName (Some (tx "box")))
  /\ snd (text_to_ip (fun _ => []) (tx "192.0.2.9") DnsYes) = false /\ snd (text_to_ip (fun _ => []) dyn DnsWarn) = true
  /\ forall t, w_sys6 demo_world t <> None.
Proof. repeat split; try (vm_compute; reflexivity). discriminate. Qed.
Example C94_demo2 : let ops := [ODns 0 (tx "box"); OReverse 1 (tx "192.0.2.1"); OSelf 5; ODns 100 (tx "box"); ODns 299 (tx "box"); ODns 300 (tx "box"); OReverse 301 (tx "192.0.2.1")] in
  forallb (fun o => negb (forgets o)) ops = true /\ (List.length (d_asked (dns_run demo_world ops)) < 997)%nat
  /\ map fst (filter (fun q => match snd q with QAddr (Some n) => eqb n (tx "box") | _ => false end) (d_asked (dns_run demo_world ops))) = [0; 300].
Proof. split; [reflexivity|]. split; [vm_compute; lia|]. vm_compute. reflexivity. Qed.
(** Without the system's word whether it has IPv6, and without known addresses of the interfaces, that is found out
    from the own names in the middle of the lookup of a name, and then this lookup asks again. *)
Definition blind_world : world := mkWorld (w_addrs demo_world) (w_reverse demo_world) (w_host demo_world) (w_canon demo_world) (w_fqdn demo_world) (fun _ => None) (fun _ => None).
Theorem C94_once_refuted : d_asked (dns_run blind_world [ODns 10 (tx "localhost")])
    = [(10, QAddr (Some (tx "localhost"))); (10, QAddr (Some (tx "box"))); (10, QAddr (Some (tx "box.example.org"))); (10, QAddr (Some (tx "localhost")))]
  /\ ~ spaced (d_asked (dns_run blind_world [ODns 10 (tx "localhost")])).
Proof.
  assert (E : d_asked (dns_run blind_world [ODns 10 (tx "localhost")])
    = [(10, QAddr (Some (tx "localhost"))); (10, QAddr (Some (tx "box"))); (10, QAddr (Some (tx "box.example.org"))); (10, QAddr (Some (tx "localhost")))]) by (vm_compute; reflexivity).
  split; [exact E|]. rewrite E. intros H.
  specialize (H [] [(10, QAddr (Some (tx "box"))); (10, QAddr (Some (tx "box.example.org")))] [] 10 10 (QAddr (Some (tx "localhost"))) eq_refl). lia.
Qed.

(** ** C95: the own names and addresses *)
Theorem C95_names W ops t fqdn :
  (exists n, snd (dns_step W (dns_run W ops) (OHost t fqdn)) = RName n /\ recent (moment (ops ++ [OHost t fqdn])) (fun t0 => host_name W t0 fqdn n) t)
  /\ exists l, snd (dns_step W (dns_run W ops) (ONames t)) = RNames l
     /\ recent (moment (ops ++ [ONames t])) (fun t0 => own_names W (moment (ops ++ [ONames t])) t0 l) t.
Proof.
  split.
  - pose proof (run_any W ops (OHost t fqdn)) as H. unfold out_okay, out_ok in H. destruct (snd (dns_step W (dns_run W ops) (OHost t fqdn))) as [l|m|l|b|]; try contradiction. eauto.
  - pose proof (run_any W ops (ONames t)) as H. unfold out_okay, out_ok in H. destruct (snd (dns_step W (dns_run W ops) (ONames t))) as [l|m|l|b|]; try contradiction. eauto.
Qed.
Theorem C95_addresses W ops t :
  (exists l, snd (dns_step W (dns_run W ops) (OIfs t)) = RIps l /\ recent (moment (ops ++ [OIfs t])) (fun t0 => set_of (interface_of W t0) l) t)
  /\ exists l, snd (dns_step W (dns_run W ops) (OSelf t)) = RIps l
     /\ recent (moment (ops ++ [OSelf t])) (fun t0 => own_ips W (moment (ops ++ [OSelf t])) any_perm t0 l) t.
Proof.
  split.
  - pose proof (run_any W ops (OIfs t)) as H. unfold out_okay, out_ok in H. destruct (snd (dns_step W (dns_run W ops) (OIfs t))) as [l|m|l|b|]; try contradiction. eauto.
  - pose proof (run_any W ops (OSelf t)) as H. unfold out_okay, out_ok in H. destruct (snd (dns_step W (dns_run W ops) (OSelf t))) as [l|m|l|b|]; try contradiction. eauto.
Qed.
Example C95_demo : snd (dns_step demo_world dns_init (OHost 7 true)) = RName (Some (tx "box.example.org"))
  /\ snd (dns_step demo_world dns_init (OHost 7 false)) = RName (Some (tx "box"))
  /\ snd (dns_step demo_world dns_init (ONames 7)) = RNames [Some (tx "localhost"); Some (tx "box"); Some (tx "box.example.org")]
  /\ match snd (dns_step demo_world dns_init (OSelf 7)) with RIps l => map ntoa l = map tx ["127.0.0.1"; "192.0.2.1"; "fe80::1"; "::1"; "192.0.2.2"] | _ => False end.
Proof. repeat split; vm_compute; reflexivity. Qed.
(** If the resolver knows no canonical name for the host, its full name is Python's None instead of the name
    socket.getfqdn() finds (which fq-hostname then shows as such): the result of the generator is tested for being
    true, and a generator always is. *)
Theorem C95_full_name_refuted : exists W, w_host W 5 = Some (tx "box") /\ w_canon W 5 (tx "box") = Some [] /\ w_fqdn W 5 (tx "box") = Some (tx "box.lan")
  /\ snd (dns_step W dns_init (OHost 5 true)) = RName None /\ In (Some None) (map Some match snd (dns_step W dns_init (ONames 5)) with RNames l => l | _ => [] end).
Proof.
  exists (mkWorld (fun _ _ _ => None) (fun _ _ => None) (fun _ => Some (tx "box")) (fun _ _ => Some []) (fun _ _ => Some (tx "box.lan")) (fun _ => None) (fun _ => Some true)).
  repeat split; try (vm_compute; reflexivity). vm_compute. auto.
Qed.
(** The caches are filled from one another, so an own address may be as old as three times the five minutes: here the host
    has its new name from time 1 on, and until 897 the address of the old one is taken for an own one. *)
Theorem C95_stale_refuted : exists W ops, (forall t, 1 <= t -> w_host W t = Some (tx "new")) /\ flat_map time_of ops = [0; 0; 299; 598]
  /\ (forall t, w_addrs W t false (tx "new") = Some [tx "192.0.2.2"])
  /\ match snd (dns_step W (dns_run W ops) (OSelf 897)) with RIps l => map ntoa l = [tx "192.0.2.1"] | _ => False end.
Proof.
  exists (mkWorld (fun t v6 n => if v6 then None else if eqb n (tx "old") then Some [tx "192.0.2.1"] else if eqb n (tx "new") then Some [tx "192.0.2.2"] else None) (fun _ _ => None)
    (fun t => if t <? 1 then Some (tx "old") else Some (tx "new")) (fun t h => Some [h]) (fun t h => Some h) (fun _ => None) (fun _ => Some false)).
  exists [OHost 0 true; OHost 0 false; ONames 299; OSelf 598]. split; [|split; [|split]].
  - intros t H. cbn. destruct (Z.ltb_spec t 1); [lia|reflexivity].
  - vm_compute. reflexivity.
  - reflexivity.
  - vm_compute. reflexivity.
Qed.

(** ** C96: IPv6 *)
(** After a start or a reload, and the setting made then, nothing old is left. *)
Theorem C96_blank W ops b : blank (dns_run W (ops ++ [OForget; OSet b])) b /\ blank (dns_run W [OSet b]) b.
Proof.
  split; [|now repeat split]. unfold dns_run. rewrite fold_left_app. cbn [fold_left dns_step fst].
  change (fold_left (fun s o => fst (dns_step W s o)) ops dns_init) with (dns_from W dns_init ops).
  assert (O : okay W (moment ops) any_perm (fun _ => True) (dns_from W dns_init ops)).
  { apply from_okay; unfold any_perm; auto.
    - split; [now apply empty_ok|]. split; [now apply empty_ok|exact I].
    - apply moments; [apply incl_refl|auto]. }
  destruct O as ((O1 & _) & (O2 & _) & _). repeat split; cbn; assumption.
Qed.
(** With the setting made, the names are looked up with IPv6, or without it, as set. *)
Theorem C96_set W s b ops t n : blank s (Some b) -> forallb (fun o => negb (sets o)) ops = true ->
  snd (dns_step W (dns_from W s ops) (OAllowed t)) = RBool b
  /\ exists l, snd (dns_step W (dns_from W s ops) (ODns t n)) = RIps l
     /\ recent (moment (ops ++ [ODns t n])) (fun t0 => set_of (address_of W t0 b (Some n)) l) t.
Proof.
  intros B F.
  assert (K : forall o, sets o = false -> out_okay W (moment (ops ++ [o])) (fun _ _ v6 => v6 = b) (dns_from W s ops) o (snd (dns_step W (dns_from W s ops) o))
              /\ d_allowed (dns_from W s ops) = Some b).
  { intros o So. assert (M : Forall (op_ok (moment (ops ++ [o])) (eq (Some b))) (ops ++ [o])).
    { apply moments; [apply incl_refl|]. intros b' I. apply in_app_or in I as [I|[->|[]]]; [now apply (no_sets ops F) in I|discriminate]. }
    split.
    - apply (run_okay W (moment (ops ++ [o])) (fun _ _ v6 => v6 = b) (eq (Some b))) with (b := Some b); auto; intros; congruence.
    - assert (O : okay W (moment (ops ++ [o])) (fun _ _ v6 => v6 = b) (eq (Some b)) (dns_from W s ops)).
      { apply from_okay; try (intros; congruence).
        - now apply (blank_ok _ _ _ _ _ _ _ _ (eq (Some b)) s (Some b)).
        - now apply Forall_app in M. }
      symmetry. apply O. }
  split.
  - destruct (K (OAllowed t) eq_refl) as [H A]. unfold out_okay, out_ok in H. destruct (snd (dns_step W (dns_from W s ops) (OAllowed t))) as [l|m|l|b'|]; try contradiction.
    rewrite A in H. destruct H as [H|[H _]]; congruence.
  - destruct (K (ODns t n) eq_refl) as [H A]. unfold out_okay, out_ok in H. destruct (snd (dns_step W (dns_from W s ops) (ODns t n))) as [l|m|l|b'|]; try contradiction.
    exists l. split; [reflexivity|]. apply recent_imp with (2 := H). intros t0 _ (v6 & E & S1). rewrite E in S1. exact S1.
Qed.
(** So without IPv6 a name gives IPv4 addresses only. *)
Theorem C96_off W s ops t n l ip : blank s (Some false) -> forallb (fun o => negb (sets o)) ops = true ->
  snd (dns_step W (dns_from W s ops) (ODns t n)) = RIps l -> In ip l -> i_fam ip = F4.
Proof.
  intros B F E I. destruct (C96_set W s false ops t n B F) as (_ & l' & E' & (t0 & _ & _ & S)). rewrite E in E'. injection E' as <-.
  apply in_mem in I. destruct (proj1 (S ip) I) as (ip' & (fam & h & ls & a & _ & Hf & _ & _ & N & V) & [_ Q]).
  assert (F4' : i_fam ip' = F4).
  { destruct fam; [specialize (Hf eq_refl); discriminate|]. cbn in N. injection N as <-. unfold ip_init in *. cbn [negb] in *. destruct (pton4 a); [reflexivity|]. discriminate. }
  unfold ip_eq in Q. destruct (eqb_spec (i_fam ip) (i_fam ip')) as [Ef|]; [congruence|discriminate].
Qed.
(** With the setting auto: what was found out at most five minutes ago. *)
Theorem C96_auto W s ops t n : blank s None -> forallb (fun o => negb (sets o)) ops = true ->
  (exists b, snd (dns_step W (dns_from W s ops) (OAllowed t)) = RBool b
     /\ let T := moment (ops ++ [OAllowed t]) in recent T (fun t0 => detected W T (auto_perm W T) t0 b) t)
  /\ exists l, snd (dns_step W (dns_from W s ops) (ODns t n)) = RIps l
     /\ let T := moment (ops ++ [ODns t n]) in recent T (fun t0 => exists v6, auto_perm W T t0 (Some n) v6 /\ set_of (address_of W t0 v6 (Some n)) l) t.
Proof.
  intros B F.
  assert (K : forall o, sets o = false -> out_okay W (moment (ops ++ [o])) (auto_perm W (moment (ops ++ [o]))) (dns_from W s ops) o (snd (dns_step W (dns_from W s ops) o))
              /\ d_allowed (dns_from W s ops) = None).
  { intros o So. assert (M : Forall (op_ok (moment (ops ++ [o])) (eq None)) (ops ++ [o])).
    { apply moments; [apply incl_refl|]. intros b' I. apply in_app_or in I as [I|[->|[]]]; [now apply (no_sets ops F) in I|discriminate]. }
    assert (H1 : forall t n b, None = Some b -> auto_perm W (moment (ops ++ [o])) t n b) by (intros; discriminate).
    pose proof (fun t n b (_ : @None bool = None) => auto_al W (moment (ops ++ [o])) t n b) as H2.
    pose proof (fun t n L Ht (_ : @None bool = None) => auto_in W (moment (ops ++ [o])) t n L Ht) as H3.
    split.
    - apply (run_okay W (moment (ops ++ [o])) (auto_perm W (moment (ops ++ [o]))) (eq None) H1 H2 H3) with (b := None); auto.
    - assert (O : okay W (moment (ops ++ [o])) (auto_perm W (moment (ops ++ [o]))) (eq None) (dns_from W s ops)).
      { apply from_okay; auto.
        - now apply (blank_ok _ _ _ _ _ _ _ _ (eq None) s None).
        - now apply Forall_app in M. }
      symmetry. apply O. }
  split.
  - destruct (K (OAllowed t) eq_refl) as [H A]. unfold out_okay, out_ok in H. destruct (snd (dns_step W (dns_from W s ops) (OAllowed t))) as [l|m|l|b'|]; try contradiction.
    rewrite A in H. destruct H as [H|[_ H]]; [discriminate|]. exists b'. split; [reflexivity|exact H].
  - destruct (K (ODns t n) eq_refl) as [H A]. unfold out_okay, out_ok in H. destruct (snd (dns_step W (dns_from W s ops) (ODns t n))) as [l|m|l|b'|]; try contradiction.
    exists l. split; [reflexivity|exact H].
Qed.
Example C96_demo : let ips o := match snd o with RIps l => map ntoa l | _ => [] end in
  ips (dns_step demo_world (dns_run demo_world [ODns 0 (tx "localhost"); OForget; OSet (Some false); OSelf 5]) (ODns 7 (tx "localhost"))) = [tx "127.0.0.1"]
  /\ ips (dns_step demo_world (dns_run demo_world [OSet (Some true)]) (ODns 7 (tx "localhost"))) = [tx "127.0.0.1"; tx "::1"]
  /\ blank dns_init None /\ snd (dns_step demo_world dns_init (OAllowed 7)) = RBool true
  /\ snd (dns_step blind_world dns_init (OAllowed 7)) = RBool true.
Proof. repeat split; vm_compute; reflexivity. Qed.
(** Switched off while the server runs, without a reload, IPv6 addresses are still given, up to five minutes long. *)
Theorem C96_switch_refuted : match snd (dns_step demo_world (dns_run demo_world [ODns 0 (tx "dyn.example.org"); OSet (Some false)]) (ODns 299 (tx "dyn.example.org"))) with
  RIps l => map ntoa l = [tx "198.51.100.1"; tx "2001:db8::7"] | _ => False end.
Proof. vm_compute. reflexivity. Qed.

(** ** C97: in a world that does not change, each answer is exact, whatever was asked before *)
Theorem C97_exact W setting s ops : constant W -> blank s setting -> forallb (fun o => negb (sets o)) ops = true ->
  let ask o := snd (dns_step W (dns_from W s ops) o) in
  (forall t n, exists l v6, ask (ODns t n) = RIps l /\ asked6 W setting v6 /\ set_of (address_of W 0 v6 (Some n)) l)
  /\ (forall t ip, ask (OReverse t ip) = RName (w_reverse W 0 ip))
  /\ (forall t f, exists n, ask (OHost t f) = RName n /\ host_name W 0 f n)
  /\ (forall t, exists l, ask (ONames t) = RNames l /\ forall n, In n l <-> the_names W n)
  /\ (forall t, exists l, ask (OIfs t) = RIps l /\ set_of (interface_of W 0) l)
  /\ forall t, exists b, ask (OAllowed t) = RBool b /\ the_ipv6 W setting b.
Proof.
  intros CW B F ask. assert (K : forall o, sets o = false -> out_ok kT (kNA W setting) (kIF W) (kSE W setting) (kAL W setting) (kHN W) (kSN W) (kRV W) (dns_from W s ops) o (ask o) /\ d_allowed (dns_from W s ops) = setting).
  { intros o So. apply k_run; auto. rewrite forallb_app, F. cbn. now rewrite So. }
  repeat split.
  - intros t n. destruct (K (ODns t n) eq_refl) as [H _]. unfold out_ok in H. destruct (ask (ODns t n)) as [l|m|l|b|]; try contradiction. apply kr in H as (v6 & A & S). exists l, v6. auto.
  - intros t ip. destruct (K (OReverse t ip) eq_refl) as [H _]. unfold out_ok in H. destruct (ask (OReverse t ip)) as [l|m|l|b|]; try contradiction. apply kr in H. now rewrite H.
  - intros t f. destruct (K (OHost t f) eq_refl) as [H _]. unfold out_ok in H. destruct (ask (OHost t f)) as [l|m|l|b|]; try contradiction. apply kr in H. eauto.
  - intros t. destruct (K (ONames t) eq_refl) as [H _]. unfold out_ok in H. destruct (ask (ONames t)) as [l|m|l|b|]; try contradiction. apply kr in H. eauto.
  - intros t. destruct (K (OIfs t) eq_refl) as [H _]. unfold out_ok in H. destruct (ask (OIfs t)) as [l|m|l|b|]; try contradiction. apply kr in H. eauto.
  - intros t. destruct (K (OAllowed t) eq_refl) as [H A]. unfold out_ok in H. destruct (ask (OAllowed t)) as [l|m|l|b|]; try contradiction. exists b. split; [reflexivity|]. rewrite A in H.
    destruct H as [-> |[E H]]; [reflexivity|]. apply kr in H. rewrite E. exact (H E).
Qed.
(** The own addresses: all there are, and none but these; IPv6 addresses of the own names may be among them
    although IPv6 is not to be used, if that had to be found out from them. *)
Theorem C97_own W setting s ops t : constant W -> blank s setting -> forallb (fun o => negb (sets o)) ops = true ->
  exists l, snd (dns_step W (dns_from W s ops) (OSelf t)) = RIps l
  /\ (forall ip, set_mem ip l = true -> exists v6 ip', asked6 W setting v6 /\ the_own W v6 ip' /\ same_ip ip ip')
  /\ forall v6 ip, the_ipv6 W setting v6 -> the_own W v6 ip -> set_mem ip l = true.
Proof.
  intros CW B F. destruct (k_run W CW setting s ops (OSelf t) B) as [H _]; [rewrite forallb_app, F; reflexivity|]. unfold out_ok in H.
  destruct (snd (dns_step W (dns_from W s ops) (OSelf t))) as [l|m|l|b|]; try contradiction. apply kr in H as [H1 H2]. eauto.
Qed.
Definition still_world : world := mkWorld (fun _ => w_addrs demo_world 0) (w_reverse demo_world) (w_host demo_world) (w_canon demo_world) (w_fqdn demo_world) (fun _ => None) (fun _ => None).
Example C97_demo : constant still_world /\ the_ipv6 still_world None true /\ the_names still_world (Some (tx "box.example.org"))
  /\ match snd (dns_step still_world (dns_run still_world [ODns 5 (tx "box"); OAllowed 77]) (OSelf 1000)) with RIps l => map ntoa l = map tx ["127.0.0.1"; "::1"; "192.0.2.1"; "192.0.2.2"] | _ => False end.
Proof.
  split; [now split|]. split.
  - cbn. right. split; [intros ip (l & E & _); discriminate|]. split; [|reflexivity]. intros _. exists (mkIp F6 1 128 (tx "::1")). split; [|vm_compute; auto].
    right. exists (Some (tx "localhost")). split; [split; [now left|discriminate]|]. exists true, (tx "localhost"), [tx "::1"], (tx "::1"). repeat split; auto; vm_compute; auto.
  - split; [|vm_compute; reflexivity]. split; [|discriminate]. right. right. exists (Some (Some (tx "box.example.org"))). split; [|reflexivity]. cbn. left. exists (tx "box.example.org"). split; [|reflexivity].
    exists [tx ""; tx "www.example.org"], []. split; [reflexivity|]. split; [now exists (tx "example.org")|]. constructor; [|constructor; [|constructor]]; intros (x & E); vm_compute in E; discriminate.
Qed.

Print Assumptions C94_addresses.
Print Assumptions C94_reverse.
Print Assumptions C94_text.
Print Assumptions C94_once.
Print Assumptions C94_demo.
Print Assumptions C94_demo2.
Print Assumptions C94_once_refuted.
Print Assumptions C95_names.
Print Assumptions C95_addresses.
Print Assumptions C95_demo.
Print Assumptions C95_full_name_refuted.
Print Assumptions C95_stale_refuted.
Print Assumptions C96_blank.
Print Assumptions C96_set.
Print Assumptions C96_off.
Print Assumptions C96_auto.
Print Assumptions C96_demo.
Print Assumptions C96_switch_refuted.
Print Assumptions C97_exact.
Print Assumptions C97_own.
Print Assumptions C97_demo.
