(** The same question is not asked again within five minutes. *)
From Coq Require Import ZifyBool ZifyNat.
From Verif Require Import Base Text IPAddr_Model Utils_Model Dns_Model Dns_Spec Dns_Proofs Dns_Proofs2.
Local Open Scope string_scope.
Local Open Scope list_scope.
Local Open Scope Z_scope.

Section Fresh.
Context {V : Type}.
Variable K : list string.
Hypothesis K3 : (List.length K <= 3)%nat.
Record fresh (M : option (string * Z)) (c : cache V) (g : list (Z * string)) : Prop := {
  f_ttl : ca_ttl c = 300;
  f_max : ca_max c = 1000%nat;
  f_wf : dwf (ca_list c);
  f_keys : incl (dkeys (ca_list c)) (K ++ map snd g);
  f_spaced : spaced g;
  f_special : forall k, In k K -> ~ In k (map snd g) /\ forall t, M <> Some (k, t);
  f_miss : forall k t, M = Some (k, t) -> forall t0, In (t0, k) g -> t0 + 300 <= t;
  f_have : forall t0 k, In (t0, k) g -> (forall t, M <> Some (k, t)) -> exists v e, dget k (ca_list c) = Some (v, e) /\ t0 + 300 <= e }.

Lemma keys_ddel {A} k (d : dict string A) : incl (dkeys (ddel k d)) (dkeys d).
Proof. intros x I. unfold dkeys in *. apply in_map_iff in I as ([a b] & <- & I). apply in_ddel in I. apply in_map_iff. exists (a, b). auto. Qed.
Lemma keys_dset {A} k v (d : dict string A) x : In x (dkeys (dset k v d)) -> x = k \/ In x (dkeys d).
Proof.
  unfold dkeys. intros I. apply in_map_iff in I as ([a b] & <- & I). apply in_dset in I as [[-> _]|I]; [now left|right]. apply in_map_iff. exists (a, b). auto.
Qed.
Lemma f_get c c' g t k r : fresh None c g -> ~ In k K -> ca_get c t k = (c', r) -> match r with Some _ => fresh None c' g | None => fresh (Some (k, t)) c' g end.
Proof.
  clear K3. intros F Nk G. unfold ca_get in G. destruct (dget k (ca_list c)) as [[v e]|] eqn:D; [destruct (Z.gtb_spec e t) as [L|L]|]; injection G as <- <-.
  - exact F.
  - destruct F as [F1 F2 F3 F4 F5 F6 F7 F8]. split; cbn [ca_with_list ca_ttl ca_max ca_list]; auto.
    + now apply dwf_ddel.
    + intros x I. apply F4. now apply keys_ddel in I.
    + intros k0 I. split; [now apply F6|]. intros t0 [= -> ->]. contradiction.
    + intros k0 t1 [= <- <-] t0 I. destruct (F8 t0 k I) as (v0 & e0 & E & L0); [discriminate|]. rewrite D in E. injection E as -> ->. lia.
    + intros t0 k0 I N. destruct (F8 t0 k0 I) as (v0 & e0 & E & L0); [discriminate|]. exists v0, e0. split; [|exact L0]. rewrite dget_ddel_other; auto. intros ->. now apply (N t).
  - destruct F as [F1 F2 F3 F4 F5 F6 F7 F8]. split; auto.
    + intros k0 I. split; [now apply F6|]. intros t0 [= -> ->]. contradiction.
    + intros k0 t1 [= <- <-] t0 I. destruct (F8 t0 k I) as (v0 & e0 & E & L0); [discriminate|]. rewrite D in E. discriminate.
    + intros t0 k0 I N. apply F8; [exact I|discriminate].
Qed.
Lemma f_get_sp M c c' g t k r : fresh M c g -> In k K -> ca_get c t k = (c', r) -> fresh M c' g.
Proof.
  clear K3. intros F Nk G. unfold ca_get in G. destruct (dget k (ca_list c)) as [[v e]|] eqn:D; [destruct (Z.gtb_spec e t) as [L|L]|]; injection G as <- <-; auto.
  destruct F as [F1 F2 F3 F4 F5 F6 F7 F8]. split; cbn [ca_with_list ca_ttl ca_max ca_list]; auto.
  - now apply dwf_ddel.
  - intros x I. apply F4. now apply keys_ddel in I.
  - intros t0 k0 I N. destruct (F8 t0 k0 I N) as (v0 & e0 & E & L0). exists v0, e0. split; [|exact L0]. rewrite dget_ddel_other; auto. intros ->. apply (proj1 (F6 k Nk)). apply in_map_iff. now exists (t0, k).
Qed.
Lemma f_small M c g : fresh M c g -> (List.length g < 997)%nat -> forall t k v, ca_set c t k v = ca_with_list (dset k (v, t + 300) (ca_list c)) c.
Proof.
  intros [F1 F2 F3 F4 F5 F6 F7 F8] L t k v. unfold ca_set. rewrite F1, F2. assert (E : (List.length (ca_list c) < 1000)%nat).
  { pose proof (NoDup_incl_length F3 F4) as H. unfold dkeys in H. rewrite app_length, !map_length in H. lia. }
  destruct (Nat.leb_spec 1000 (List.length (ca_list c))); [lia|reflexivity].
Qed.
Lemma f_set_sp M c g t k v : fresh M c g -> In k K -> (List.length g < 997)%nat -> fresh M (ca_set c t k v) g.
Proof.
  intros F Nk L. rewrite (f_small M c g F L). destruct F as [F1 F2 F3 F4 F5 F6 F7 F8]. split; cbn [ca_with_list ca_ttl ca_max ca_list]; auto.
  - now apply dwf_dset.
  - intros x I. apply keys_dset in I as [-> |I]; [apply in_or_app; now left|auto].
  - intros t0 k0 I N. destruct (F8 t0 k0 I N) as (v0 & e0 & E & L0). exists v0, e0. split; [|exact L0]. rewrite dget_dset_other; auto. intros ->. apply (proj1 (F6 k Nk)). apply in_map_iff. now exists (t0, k).
Qed.
Lemma spaced_snoc {Q} (g : list (Z * Q)) t k : spaced g -> (forall t0, In (t0, k) g -> t0 + 300 <= t) -> spaced (g ++ [(t, k)]).
Proof.
  intros H1 H2 l1 l2 l3 t1 t2 q E. destruct (rev l3) as [|x m] eqn:R.
  - assert (l3 = []) as -> by (now rewrite <- (rev_involutive l3), R). rewrite app_comm_cons, app_assoc in E. apply app_inj_tail in E as [-> E]. injection E as -> ->. apply H2. apply in_or_app. right. now left.
  - assert (l3 = rev m ++ [x]) as -> by (rewrite <- (rev_involutive l3), R; reflexivity).
    assert (E' : g ++ [(t, k)] = (l1 ++ (t1, q) :: l2 ++ (t2, q) :: rev m) ++ [x]) by (rewrite E, <- app_assoc; cbn; now rewrite <- app_assoc). apply app_inj_tail in E' as [E' _]. exact (H1 _ _ _ _ _ _ E').
Qed.
Lemma f_ask c g t k v : fresh (Some (k, t)) c g -> (List.length g < 997)%nat -> fresh None (ca_set c t k v) (g ++ [(t, k)]).
Proof.
  intros F L. rewrite (f_small _ c g F L). destruct F as [F1 F2 F3 F4 F5 F6 F7 F8]. split; cbn [ca_with_list ca_ttl ca_max ca_list]; auto.
  - now apply dwf_dset.
  - intros x I. rewrite map_app, app_assoc. apply in_or_app. apply keys_dset in I as [-> |I]; [right; now left|left; auto].
  - apply spaced_snoc; [exact F5|]. now apply F7.
  - intros k0 I. split; [|discriminate]. rewrite map_app. intros J. apply in_app_or in J as [J|[J|[]]]; [now apply (F6 k0)|]. cbn in J. subst k0. now apply (proj2 (F6 k I) t).
  - discriminate.
  - intros t0 k0 I _. destruct (eqb_spec k0 k) as [-> |N].
    + exists v, (t + 300). split; [apply dget_dset_same|]. apply in_app_or in I as [I|[[= <-]|[]]]; [|lia]. specialize (F7 k t eq_refl t0 I). lia.
    + apply in_app_or in I as [I|[[= <- <-]|[]]]; [|contradiction]. destruct (F8 t0 k0 I) as (v0 & e0 & E & L0); [congruence|]. exists v0, e0. split; [|exact L0]. rewrite dget_dset_other; auto.
Qed.
End Fresh.

Definition qa (l : list (Z * question)) : list (Z * string) := flat_map (fun '(t, q) => match q with QAddr n => [(t, k_name n)] | QName _ => [] end) l.
Definition qn (l : list (Z * question)) : list (Z * string) := flat_map (fun '(t, q) => match q with QName ip => [(t, k_ip ip)] | QAddr _ => [] end) l.
Definition Ka := [k_ifs; k_self; k_ipv6].
Definition Kn := [k_hostname true; k_hostname false; k_names].
Lemma qa_len l : (List.length (qa l) <= List.length l)%nat.
Proof. unfold qa. induction l as [|[t []] l IH]; cbn [flat_map]; rewrite ?app_length; cbn [List.length] in *; lia. Qed.
Lemma qn_len l : (List.length (qn l) <= List.length l)%nat.
Proof. unfold qn. induction l as [|[t []] l IH]; cbn [flat_map]; rewrite ?app_length; cbn [List.length] in *; lia. Qed.

Section Once.
Variable W : world.
Hypothesis SYS : forall t, w_sys6 W t <> None.
Definition inv (Ma Mn : option (string * Z)) (s : dns) : Prop := fresh Ka Ma (d_ips s) (qa (d_asked s)) /\ fresh Kn Mn (d_names s) (qn (d_asked s)).
Definition small (s : dns) : Prop := (List.length (d_asked s) < 997)%nat.
Lemma small_a s : small s -> (List.length (qa (d_asked s)) < 997)%nat.
Proof. unfold small. pose proof (qa_len (d_asked s)). lia. Qed.
Lemma small_n s : small s -> (List.length (qn (d_asked s)) < 997)%nat.
Proof. unfold small. pose proof (qn_len (d_asked s)). lia. Qed.
Lemma k_name_Ka n : ~ In (k_name n) Ka.
Proof. pose proof (k_name_other n) as (H1 & H2 & H3). cbn. intuition congruence. Qed.
Lemma k_ip_Kn ip : ~ In (k_ip ip) Kn.
Proof. cbn. intuition discriminate. Qed.

Lemma o_names_get Ma Mn s t k c r : inv Ma Mn s -> In k Kn -> ca_get (d_names s) t k = (c, r) -> inv Ma Mn (with_names c s).
Proof. intros [H1 H2] I G. split; [exact H1|]. cbn [with_names d_names d_asked]. exact (f_get_sp Kn _ _ _ _ _ _ _ H2 I G). Qed.
Lemma o_ips_get Ma Mn s t k c r : inv Ma Mn s -> In k Ka -> ca_get (d_ips s) t k = (c, r) -> inv Ma Mn (with_ips c s).
Proof. intros [H1 H2] I G. split; [|exact H2]. cbn [with_ips d_ips d_asked]. exact (f_get_sp Ka _ _ _ _ _ _ _ H1 I G). Qed.
Lemma o_names_set Ma Mn s t k v : inv Ma Mn s -> In k Kn -> small s -> inv Ma Mn (with_names (ca_set (d_names s) t k v) s).
Proof. intros [H1 H2] I L. split; [exact H1|]. cbn [with_names d_names d_asked]. apply f_set_sp; auto. now apply small_n. Qed.
Lemma o_ips_set Ma Mn s t k v : inv Ma Mn s -> In k Ka -> small s -> inv Ma Mn (with_ips (ca_set (d_ips s) t k v) s).
Proof. intros [H1 H2] I L. split; [|exact H2]. cbn [with_ips d_ips d_asked]. apply f_set_sp; auto. now apply small_a. Qed.
Lemma in_kn f : In (k_hostname f) Kn.
Proof. destruct f; cbn; auto. Qed.

Lemma host_asked t f s s' n : get_hostname W t f s = (s', n) -> d_asked s' = d_asked s.
Proof.
  unfold get_hostname. destruct (ca_get (d_names s) t (k_hostname f)) as [c r]. cbv zeta. destruct (if f then _ else _) as [a b]. destruct r as [[[m|]|l]|]; intros D; now injection D as <- <-.
Qed.
Lemma names_asked t s s' l : self_names W t s = (s', l) -> d_asked s' = d_asked s.
Proof.
  unfold self_names. destruct (ca_get (d_names s) t k_names) as [c r].
  destruct (get_hostname W t false (with_names c s)) as [s1 a] eqn:A. destruct (get_hostname W t true s1) as [s2 b] eqn:B. apply host_asked in A, B. cbn [with_names d_asked] in A.
  destruct r as [[m|l0]|]; intros D; injection D as <- <-; cbn [with_names d_asked]; congruence.
Qed.
Lemma net_asked t s s' l : net_ips W t s = (s', l) -> d_asked s' = d_asked s.
Proof. unfold net_ips. destruct (ca_get (d_ips s) t k_ifs) as [c r]. cbv zeta. destruct r as [[m|l0]|]; intros D; now injection D as <- <-. Qed.
Lemma allowed_asked t s s' b : ipv6_allowed W t s = (s', b) -> d_asked s' = d_asked s.
Proof.
  unfold ipv6_allowed. destruct (d_allowed s) as [x|]; [intros D; now injection D as <- <-|]. destruct (ca_get (d_ips s) t k_ipv6) as [c r].
  pose proof (SYS t) as Sy. destruct (w_sys6 W t) as [y|]; [|contradiction]. destruct r as [[m|l0]|]; intros D; now injection D as <- <-.
Qed.
Definition grows (s s' : dns) : Prop := exists x, d_asked s' = d_asked s ++ x.
Lemma grows_refl s s' : d_asked s' = d_asked s -> grows s s'.
Proof. intros E. exists []. now rewrite app_nil_r. Qed.
Lemma grows_trans a b c : grows a b -> grows b c -> grows a c.
Proof. intros [x E] [y E']. exists (x ++ y). now rewrite E', E, app_assoc. Qed.
Lemma grows_small s s' : grows s s' -> small s' -> small s.
Proof. intros [x E]. unfold small. rewrite E, app_length. lia. Qed.
Lemma dns_grows t n s s' l : dns_to_ip W t n s = (s', l) -> grows s s'.
Proof.
  unfold dns_to_ip, dns_with. destruct (ca_get (d_ips s) t (k_name n)) as [c r]. destruct r as [[]|]; intros D; try (injection D as <- <-; now apply grows_refl).
  destruct (ipv6_allowed W t (with_ips c s)) as [s1 v6] eqn:A. injection D as <- <-. apply allowed_asked in A. exists [(t, QAddr n)]. cbn. now rewrite A.
Qed.
Lemma rev_grows t ip s s' n : ip_to_name W t ip s = (s', n) -> grows s s'.
Proof.
  unfold ip_to_name. destruct (ca_get (d_names s) t (k_ip ip)) as [c r]. destruct r as [[]|]; intros D; injection D as <- <-; try (now apply grows_refl). now exists [(t, QName ip)].
Qed.
Lemma all_grows t L : forall ips s s' l, all_ips (dns_to_ip W t) L ips s = (s', l) -> grows s s'.
Proof.
  induction L as [|n L IH]; intros ips s s' l D; cbn [all_ips] in D; [injection D as <- <-; now apply grows_refl|].
  destruct (dns_to_ip W t n s) as [s1 i] eqn:A. apply dns_grows in A. apply IH in D. now apply grows_trans with s1.
Qed.
Lemma self_grows t s s' l : self_ips W t s = (s', l) -> grows s s'.
Proof.
  unfold self_ips, self_with. destruct (ca_get (d_ips s) t k_self) as [c r].
  destruct (net_ips W t (with_ips c s)) as [s1 ifs] eqn:A. destruct (self_names W t s1) as [s2 L] eqn:B. destruct (all_ips (dns_to_ip W t) L (addr_set ifs) s2) as [s3 ips] eqn:E.
  apply net_asked in A. apply names_asked in B. apply all_grows in E as [x E]. cbn [with_ips d_asked] in A.
  destruct r as [[m|b]|]; intros D; injection D as <- <-; [now apply grows_refl|exists x; cbn; congruence|exists x; cbn; congruence].
Qed.
Lemma step_grows s o : grows s (fst (dns_step W s o)).
Proof.
  destruct o as [t n|t ip|t f|t|t|t|t|t a u|b|]; cbn [dns_step].
  - destruct (dns_to_ip W t (Some n) s) as [s' l] eqn:D. exact (dns_grows _ _ _ _ _ D).
  - destruct (ip_to_name W t ip s) as [s' l] eqn:D. exact (rev_grows _ _ _ _ _ D).
  - destruct (get_hostname W t f s) as [s' l] eqn:D. exact (grows_refl _ _ (host_asked _ _ _ _ _ D)).
  - destruct (self_names W t s) as [s' l] eqn:D. exact (grows_refl _ _ (names_asked _ _ _ _ D)).
  - destruct (net_ips W t s) as [s' l] eqn:D. exact (grows_refl _ _ (net_asked _ _ _ _ D)).
  - destruct (self_ips W t s) as [s' l] eqn:D. exact (self_grows _ _ _ _ D).
  - destruct (ipv6_allowed W t s) as [s' l] eqn:D. exact (grows_refl _ _ (allowed_asked _ _ _ _ D)).
  - unfold text_to_ips. destruct u, (plain_ip a); try (now apply grows_refl); destruct (dns_to_ip W t (Some a) s) as [s' l'] eqn:D; exact (dns_grows _ _ _ _ _ D).
  - now apply grows_refl.
  - now apply grows_refl.
Qed.
Lemma o_host Ma Mn t f s s' n : inv Ma Mn s -> get_hostname W t f s = (s', n) -> small s -> inv Ma Mn s'.
Proof.
  intros I D. unfold get_hostname in D. destruct (ca_get (d_names s) t (k_hostname f)) as [c r] eqn:G. pose proof (o_names_get _ _ _ _ _ _ _ I (in_kn f) G) as I1.
  cbv zeta in D. destruct (if f then _ else _) as [a b].
  assert (E : s' = with_names c s \/ exists v, s' = with_names (ca_set (d_names (with_names c s)) t (k_hostname f) v) (with_names c s)).
  { destruct r as [[[m|]|l]|]; injection D as <- <-; [now left|right; eauto|right; eauto|right; eauto]. }
  destruct E as [-> |(v & ->)]; intros Sm; [exact I1|]. apply o_names_set; [exact I1|apply in_kn|exact Sm].
Qed.
Lemma o_self_names Ma Mn t s s' l : inv Ma Mn s -> self_names W t s = (s', l) -> small s -> inv Ma Mn s'.
Proof.
  intros I D. unfold self_names in D. destruct (ca_get (d_names s) t k_names) as [c r] eqn:G. pose proof (o_names_get _ _ _ _ k_names _ _ I (or_intror (or_intror (or_introl eq_refl))) G) as I1.
  destruct (get_hostname W t false (with_names c s)) as [s1 a] eqn:A. destruct (get_hostname W t true s1) as [s2 b] eqn:B.
  assert (E : (s' = with_names c s) \/ exists v, s' = with_names (ca_set (d_names s2) t k_names v) s2).
  { destruct r as [[m|l0]|]; injection D as <- <-; [right; eauto|now left|right; eauto]. }
  destruct E as [-> |(v & ->)]; intros Sm; [exact I1|].
  pose proof (host_asked _ _ _ _ _ A) as E1. pose proof (host_asked _ _ _ _ _ B) as E2. cbn [with_names d_asked] in E1.
  assert (S1 : small s1) by (unfold small in *; now rewrite E1). assert (S2 : small s2) by (unfold small in *; now rewrite E2).
  apply o_names_set; [|cbn; auto|exact S2]. apply (o_host _ _ _ _ _ _ _ (o_host _ _ _ _ _ _ _ I1 A Sm) B S1).
Qed.
Lemma o_net Ma Mn t s s' l : inv Ma Mn s -> net_ips W t s = (s', l) -> small s -> inv Ma Mn s'.
Proof.
  intros I D. unfold net_ips in D. destruct (ca_get (d_ips s) t k_ifs) as [c r] eqn:G. pose proof (o_ips_get _ _ _ _ k_ifs _ _ I (or_introl eq_refl) G) as I1. cbv zeta in D.
  destruct r as [[l0|b]|]; injection D as <- <-; intros Sm; [exact I1| |]; (apply (o_ips_set Ma Mn (with_ips c s)); [exact I1|now left|exact Sm]).
Qed.
Lemma o_allowed Ma Mn t s s' b : inv Ma Mn s -> ipv6_allowed W t s = (s', b) -> small s -> inv Ma Mn s'.
Proof.
  intros I D. unfold ipv6_allowed in D. destruct (d_allowed s) as [x|]; [injection D as <- <-; auto|].
  destruct (ca_get (d_ips s) t k_ipv6) as [c r] eqn:G. pose proof (o_ips_get _ _ _ _ k_ipv6 _ _ I (or_intror (or_intror (or_introl eq_refl))) G) as I1.
  pose proof (SYS t) as Sy. destruct (w_sys6 W t) as [y|]; [|contradiction].
  destruct r as [[l0|b0]|]; injection D as <- <-; intros Sm; [|exact I1|]; (apply (o_ips_set Ma Mn (with_ips c s)); [exact I1|cbn; auto|exact Sm]).
Qed.
Lemma o_dns Mn t n s s' l : inv None Mn s -> dns_to_ip W t n s = (s', l) -> small s' -> inv None Mn s'.
Proof.
  intros [H1 H2] D. unfold dns_to_ip, dns_with in D. destruct (ca_get (d_ips s) t (k_name n)) as [c r] eqn:G.
  pose proof (f_get Ka _ _ _ _ _ _ H1 (k_name_Ka n) G) as F. destruct r as [v|].
  - assert (E : s' = with_ips c s) by (destruct v; now injection D as <- <-). rewrite E. intros _. split; [exact F|exact H2].
  - destruct (ipv6_allowed W t (with_ips c s)) as [s1 v6] eqn:A. assert (I : inv (Some (k_name n, t)) Mn (with_ips c s)) by (split; [exact F|exact H2]).
    pose proof (allowed_asked _ _ _ _ A) as E1. injection D as <- <-. cbn [with_ips ask d_asked] in *.
    intros Sm. assert (S1 : small s1) by (unfold small in *; cbn [with_ips ask d_asked] in Sm; rewrite app_length in Sm; cbn in Sm; lia).
    assert (S0 : small (with_ips c s)) by (unfold small in *; cbn [with_ips d_asked]; now rewrite <- E1). destruct (o_allowed _ _ _ _ _ _ I A S0) as [J1 J2].
    split; cbn [with_ips ask d_ips d_names d_asked]; unfold qa, qn; rewrite flat_map_app; cbn [flat_map]; rewrite !app_nil_r; [|exact J2]. apply f_ask; auto. now apply small_a.
Qed.
Lemma o_reverse Ma t ip s s' n : inv Ma None s -> ip_to_name W t ip s = (s', n) -> small s' -> inv Ma None s'.
Proof.
  intros [H1 H2] D. unfold ip_to_name in D. destruct (ca_get (d_names s) t (k_ip ip)) as [c r] eqn:G.
  pose proof (f_get Kn _ _ _ _ _ _ H2 (k_ip_Kn ip) G) as F. destruct r as [v|].
  - assert (E : s' = with_names c s) by (destruct v; now injection D as <- <-). rewrite E. intros _. split; [exact H1|exact F].
  - injection D as <- <-. cbn [with_names ask d_asked] in *.
    intros Sm. assert (S1 : small s) by (unfold small in *; cbn [with_names ask d_asked] in Sm; rewrite app_length in Sm; cbn in Sm; lia).
    split; cbn [with_names ask d_ips d_names d_asked]; unfold qa, qn; rewrite flat_map_app; cbn [flat_map]; rewrite !app_nil_r; [exact H1|]. apply f_ask; auto. now apply small_n.
Qed.
Lemma o_all t L : forall ips s s' l, inv None None s -> all_ips (dns_to_ip W t) L ips s = (s', l) -> small s' -> inv None None s'.
Proof.
  induction L as [|n L IH]; intros ips s s' l I D Sm; cbn [all_ips] in D; [injection D as <- <-; auto|].
  destruct (dns_to_ip W t n s) as [s1 i] eqn:A. pose proof (all_grows _ _ _ _ _ _ D) as G1. apply IH in D; auto. apply (o_dns None t n s s1 i I A). now apply grows_small with s'.
Qed.
Lemma o_self t s s' l : inv None None s -> self_ips W t s = (s', l) -> small s' -> inv None None s'.
Proof.
  intros I D. unfold self_ips, self_with in D. destruct (ca_get (d_ips s) t k_self) as [c r] eqn:G. pose proof (o_ips_get _ _ _ _ k_self _ _ I (or_intror (or_introl eq_refl)) G) as I1.
  destruct (net_ips W t (with_ips c s)) as [s1 ifs] eqn:A. destruct (self_names W t s1) as [s2 L] eqn:B. destruct (all_ips (dns_to_ip W t) L (addr_set ifs) s2) as [s3 ips] eqn:E.
  assert (H : s' = with_ips c s \/ exists v, s' = with_ips (ca_set (d_ips s3) t k_self v) s3).
  { destruct r as [[m|b]|]; injection D as <- <-; [now left|right; eauto|right; eauto]. }
  destruct H as [-> |(v & ->)]; [auto|]. intros Sm. change (small s3) in Sm.
  pose proof (net_asked _ _ _ _ A) as E1. pose proof (names_asked _ _ _ _ B) as E2. cbn [with_ips d_asked] in E1. pose proof (grows_small _ _ (all_grows _ _ _ _ _ _ E) Sm) as S2.
  assert (S1 : small s1) by (unfold small in *; now rewrite <- E2). assert (S0 : small s) by (unfold small in *; now rewrite <- E1).
  apply o_ips_set; [|cbn; auto|exact Sm]. apply (o_all _ _ _ _ _ _ (o_self_names _ _ _ _ _ _ (o_net _ _ _ _ _ _ I1 A S0) B S1) E Sm).
Qed.
Lemma o_step s o : forgets o = false -> inv None None s -> small (fst (dns_step W s o)) -> inv None None (fst (dns_step W s o)).
Proof.
  intros NF I. destruct o as [t n|t ip|t f|t|t|t|t|t a u|b|]; cbn [dns_step forgets] in *; try discriminate.
  - destruct (dns_to_ip W t (Some n) s) as [s' l] eqn:D. apply (o_dns None t (Some n) s s' l I D).
  - destruct (ip_to_name W t ip s) as [s' l] eqn:D. apply (o_reverse None t ip s s' l I D).
  - destruct (get_hostname W t f s) as [s' l] eqn:D. cbn [fst]. intros Sm. apply (o_host None None t f s s' l I D). unfold small in *. now rewrite <- (host_asked _ _ _ _ _ D).
  - destruct (self_names W t s) as [s' l] eqn:D. cbn [fst]. intros Sm. apply (o_self_names None None t s s' l I D). unfold small in *. now rewrite <- (names_asked _ _ _ _ D).
  - destruct (net_ips W t s) as [s' l] eqn:D. cbn [fst]. intros Sm. apply (o_net None None t s s' l I D). unfold small in *. now rewrite <- (net_asked _ _ _ _ D).
  - destruct (self_ips W t s) as [s' l] eqn:D. apply (o_self t s s' l I D).
  - destruct (ipv6_allowed W t s) as [s' l] eqn:D. cbn [fst]. intros Sm. apply (o_allowed None None t s s' l I D). unfold small in *. now rewrite <- (allowed_asked _ _ _ _ D).
  - unfold text_to_ips. destruct u, (plain_ip a); try (intros _; exact I);
      (destruct (dns_to_ip W t (Some a) s) as [s' l'] eqn:D; apply (o_dns None t (Some a) s s' l' I D)).
  - intros _. exact I.
Qed.
Lemma o_run ops : forall s, forallb (fun o => negb (forgets o)) ops = true -> inv None None s -> small (dns_from W s ops) -> inv None None (dns_from W s ops).
Proof.
  induction ops as [|o ops IH] using rev_ind; intros s F I Sm; [exact I|]. rewrite forallb_app in F. apply andb_true_iff in F as [F1 F2]. cbn [forallb] in F2. rewrite andb_true_r in F2. apply negb_true_iff in F2.
  unfold dns_from in *. rewrite fold_left_app in *. cbn [fold_left] in *. set (s1 := fold_left (fun s o => fst (dns_step W s o)) ops s) in *.
  destruct (lt_dec (List.length (d_asked s1)) 997) as [L|L].
  - apply o_step; auto. now apply (IH s).
  - exfalso. apply L. apply grows_small with (2 := Sm). apply step_grows.
Qed.
Lemma init_inv : inv None None dns_init.
Proof.
  assert (F : forall V K, fresh K None (@mkCache V [] 1000%nat 300) []).
  { intros V K. split; try reflexivity; auto.
    - constructor.
    - intros x [].
    - intros [] l2 l3 t1 t2 q E; discriminate.
    - intros k _. split; [intros []|discriminate].
    - discriminate.
    - intros t0 k []. }
  split; apply F.
Qed.
Lemma inv_spaced s : inv None None s -> spaced (d_asked s).
Proof.
  intros [[_ _ _ _ H1 _ _ _] [_ _ _ _ H2 _ _ _]] l1 l2 l3 t1 t2 q E. rewrite E in H1, H2. destruct q as [n|ip].
  - unfold qa in H1. rewrite flat_map_app in H1. cbn [flat_map] in H1. rewrite flat_map_app in H1. cbn [flat_map app] in H1. exact (H1 _ _ _ _ _ _ eq_refl).
  - unfold qn in H2. rewrite flat_map_app in H2. cbn [flat_map] in H2. rewrite flat_map_app in H2. cbn [flat_map app] in H2. exact (H2 _ _ _ _ _ _ eq_refl).
Qed.
End Once.
