(** What the caches hold is justified, for any notion of justification that is closed under the steps. *)
From Coq Require Import ZifyBool ZifyNat.
From Verif Require Import Base Text IPAddr_Model Utils_Model Dns_Model Dns_Spec Dns_Proofs.
Local Open Scope string_scope.
Local Open Scope list_scope.
Local Open Scope Z_scope.

Definition ok_cache {V} (P : string -> V -> Z -> Prop) (c : cache V) : Prop :=
  ca_ttl c = 300 /\ forall k v e, In (k, (v, e)) (ca_list c) -> exists t0, e = t0 + 300 /\ P k v t0.
Lemma in_ddel {V} k (d : dict string V) x : In x (ddel k d) -> In x d.
Proof. induction d as [|[a b] d IH]; cbn [ddel]; [auto|]. destruct (eqb k a); [now right|]. intros [<-|I]; [now left|right; auto]. Qed.
Lemma get_ok {V} P (c c' : cache V) t k r : ok_cache P c -> ca_get c t k = (c', r) ->
  ok_cache P c' /\ forall v, r = Some v -> exists t0, t < t0 + 300 /\ P k v t0.
Proof.
  intros [H1 H2] G. unfold ca_get in G. destruct (dget k (ca_list c)) as [[v e]|] eqn:D.
  - destruct (Z.gtb_spec e t) as [L|L]; injection G as <- <-.
    + split; [split; auto|]. intros v' [= <-]. apply dget_In in D. destruct (H2 k v e D) as (t0 & -> & HP). exists t0. split; [lia|exact HP].
    + split; [|discriminate]. split; [exact H1|]. cbn [ca_with_list ca_list]. intros k' v' e' I. apply (H2 k' v' e'). now apply in_ddel in I.
  - injection G as <- <-. split; [split; auto|discriminate].
Qed.
Lemma evict_incl {V} t max (l : dict string (V * Z)) : incl (evict t max l) l.
Proof. induction l as [|[k [v e]] l IH]; cbn [evict]; [apply incl_refl|]. destruct (_ && _); [apply incl_tl, incl_refl|now apply incl_tl]. Qed.
Lemma in_dset {V} k k' (x y : V) (d : dict string V) : In (k, x) (dset k' y d) -> (k = k' /\ x = y) \/ In (k, x) d.
Proof.
  induction d as [|[a b] d IH]; cbn [dset].
  - intros [[= <- <-]|[]]. now left.
  - destruct (eqb_spec k' a) as [->|N].
    + intros [[= <- <-]|I]; [now left|right; now right].
    + intros [[= <- <-]|I]; [right; now left|]. destruct (IH I) as [H|H]; [now left|right; now right].
Qed.
Lemma set_ok {V} P (c : cache V) t k v : ok_cache P c -> P k v t -> ok_cache P (ca_set c t k v).
Proof.
  intros [H1 H2] HP. unfold ca_set. split; [exact H1|]. cbn [ca_with_list ca_list]. intros k' v' e I. apply in_dset in I as [[-> E]|I].
  - injection E as -> ->. exists t. rewrite H1. auto.
  - apply (H2 k' v' e). destruct (Nat.leb _ _); [|exact I]. now apply evict_incl in I.
Qed.
Lemma empty_ok {V} P (c : cache V) : ca_ttl c = 300 -> ca_list c = [] -> ok_cache P c.
Proof. intros H1 H2. split; [exact H1|]. rewrite H2. intros k v e []. Qed.

Section Just.
Variable W : world.
Variable T : Z -> Prop.
Variable NA : Z -> name -> list ipaddr -> Prop.
Variable IF : Z -> list ipaddr -> Prop.
Variable SE : Z -> list ipaddr -> Prop.
Variable AL : Z -> bool -> Prop.
Variable HN : Z -> bool -> name -> Prop.
Variable SN : Z -> list name -> Prop.
Variable RV : Z -> text -> name -> Prop.
Variable PM : Z -> name -> bool -> Prop.
Variable ST : option bool -> Prop.

Hypothesis c_na : forall t n v6, T t -> PM t n v6 -> NA t n (resolve W t v6 n).
Hypothesis c_if : forall t, T t -> IF t (if_ips W t).
Hypothesis c_hn : forall t f, T t -> HN t f (host_now W t f).
Hypothesis c_sn : forall t a b, T t -> recent T (fun t0 => HN t0 false a) t -> recent T (fun t0 => HN t0 true b) t ->
  SN t (filter (fun n => negb (eqb n (Some []))) (name_add b (name_add a [Some (tx "localhost")]))).
Hypothesis c_rv : forall t ip, T t -> RV t ip (w_reverse W t ip).
Hypothesis c_se : forall t ifs L is, T t -> recent T (fun t0 => IF t0 ifs) t -> recent T (fun t0 => SN t0 L) t ->
  Forall2 (fun n i => recent T (fun t0 => NA t0 n i) t) L is -> SE t (fold_left (fun ips i => union ips (addr_set i)) is (addr_set ifs)).
Hypothesis c_al_sys : forall t b, T t -> w_sys6 W t = Some b -> AL t b.
Hypothesis c_al_ifs : forall t ifs, T t -> w_sys6 W t = None -> recent T (fun t0 => IF t0 ifs) t -> ifs <> [] -> AL t (existsb has_colon ifs).
Hypothesis c_al_self : forall t l, T t -> w_sys6 W t = None -> recent T (fun t0 => IF t0 []) t -> recent T (fun t0 => SE t0 l) t -> AL t (existsb has_colon l).
Hypothesis c_pm_set : forall t n b, ST (Some b) -> PM t n b.
Hypothesis c_pm_al : forall t n b, ST None -> recent T (fun t0 => AL t0 b) t -> PM t n b.
Hypothesis c_pm_in : forall t n L, T t -> ST None -> w_sys6 W t = None -> recent T (fun t0 => IF t0 []) t -> recent T (fun t0 => SN t0 L) t -> In n L -> PM t n true.

Definition Pi (k : string) (v : ival) (t0 : Z) : Prop :=
  T t0 /\ (forall n, k = k_name n -> exists l, v = IIps l /\ NA t0 n l)
  /\ (k = k_ifs -> exists l, v = IIps l /\ IF t0 l)
  /\ (k = k_self -> exists l, v = IIps l /\ SE t0 l)
  /\ (k = k_ipv6 -> exists b, v = IBool b /\ AL t0 b).
Definition Pn (k : string) (v : nval) (t0 : Z) : Prop :=
  T t0 /\ (forall ip, k = k_ip ip -> exists n, v = NName n /\ RV t0 ip n)
  /\ (forall f, k = k_hostname f -> exists n, v = NName n /\ HN t0 f n)
  /\ (k = k_names -> exists l, v = NNames l /\ SN t0 l).
Definition ok (s : dns) : Prop := ok_cache Pi (d_ips s) /\ ok_cache Pn (d_names s) /\ ST (d_allowed s).

Lemma now_recent (X : Z -> Prop) t : T t -> X t -> recent T X t.
Proof. intros H1 H2. exists t. split; [exact H1|]. split; [lia|exact H2]. Qed.
Lemma k_name_inj a b : k_name a = k_name b -> a = b.
Proof.
  destruct a as [a|], b as [b|]; cbn; intros E; try discriminate; [|reflexivity]. injection E as E.
  rewrite <- (list_ascii_of_string_of_list_ascii a), <- (list_ascii_of_string_of_list_ascii b), E. reflexivity.
Qed.
Lemma k_ip_inj a b : k_ip a = k_ip b -> a = b.
Proof. intros E. assert (K : Some a = Some b) by (apply k_name_inj; exact E). congruence. Qed.
Lemma k_name_other n : k_name n <> k_ifs /\ k_name n <> k_self /\ k_name n <> k_ipv6.
Proof. destruct n; repeat split; discriminate. Qed.
Lemma k_ip_other ip : (forall f, k_ip ip <> k_hostname f) /\ k_ip ip <> k_names.
Proof. split; [intros []|]; discriminate. Qed.

Lemma na_ok t n s (allowed : dns -> dns * bool) s' l : T t ->
  (forall s s' b, ok s -> allowed s = (s', b) -> ok s' /\ PM t n b) ->
  ok s -> dns_with W allowed t n s = (s', l) -> ok s' /\ recent T (fun t0 => NA t0 n l) t.
Proof.
  intros Ht HA (O1 & O2 & O3) D. unfold dns_with in D. destruct (ca_get (d_ips s) t (k_name n)) as [c r] eqn:G.
  destruct (get_ok _ _ _ _ _ _ O1 G) as [C1 C2]. destruct r as [v|].
  - destruct (C2 v eq_refl) as (t0 & L & (T0 & P1 & _)). destruct (P1 n eq_refl) as (l0 & -> & HN0). injection D as <- <-. split; [split; auto|]. exists t0. auto.
  - destruct (allowed (with_ips c s)) as [s1 v6] eqn:A. apply HA in A as [(A1 & A2 & A3) A4]; [|split; auto]. injection D as <- <-.
    assert (N : NA t n (resolve W t v6 n)) by auto. split; [|now apply now_recent]. split; [|split; [exact A2|exact A3]]. cbn [with_ips d_ips ask]. apply set_ok; [exact A1|].
    split; [exact Ht|]. pose proof (k_name_other n) as (K1 & K2 & K3). split; [intros m E; apply k_name_inj in E as <-; eauto|]. repeat split; intros E; contradiction.
Qed.
Lemma rv_ok t ip s s' n : T t -> ok s -> ip_to_name W t ip s = (s', n) -> ok s' /\ recent T (fun t0 => RV t0 ip n) t.
Proof.
  intros Ht (O1 & O2 & O3) D. unfold ip_to_name in D. destruct (ca_get (d_names s) t (k_ip ip)) as [c r] eqn:G.
  destruct (get_ok _ _ _ _ _ _ O2 G) as [C1 C2]. destruct r as [v|].
  - destruct (C2 v eq_refl) as (t0 & L & (T0 & P1 & _)). destruct (P1 ip eq_refl) as (l0 & -> & HN0). injection D as <- <-. split; [split; auto|]. exists t0. auto.
  - injection D as <- <-. split; [|now apply now_recent; auto]. split; [exact O1|]. split; [|exact O3]. cbn [with_names d_names ask]. apply set_ok; [exact C1|].
    split; [exact Ht|]. pose proof (k_ip_other ip) as (K1 & K2). split; [intros m E; apply k_ip_inj in E as <-; eauto|]. split; [intros f E; now elim (K1 f)|intros E; contradiction].
Qed.
Lemma hn_ok t f s s' n : T t -> ok s -> get_hostname W t f s = (s', n) -> ok s' /\ recent T (fun t0 => HN t0 f n) t.
Proof.
  intros Ht (O1 & O2 & O3) D. unfold get_hostname in D. destruct (ca_get (d_names s) t (k_hostname f)) as [c r] eqn:G.
  destruct (get_ok _ _ _ _ _ _ O2 G) as [C1 C2].
  change (let host := match w_host W t with Some h => Some (Some h) | None => None end in
          let '(a, b) := if f then (get_fqdn W t, host) else (host, get_fqdn W t) in
          match a with Some m => m | None => match b with Some m => m | None => Some [] end end) with (host_now W t f) in D.
  assert (E : (s', n) = (with_names (ca_set (d_names (with_names c s)) t (k_hostname f) (NName (host_now W t f))) (with_names c s), host_now W t f) \/ exists n0, n = Some n0 /\ s' = with_names c s /\ r = Some (NName (Some n0))).
  { rewrite <- D. unfold host_now. destruct r as [[[n0|]|l]|]; try (left; destruct f; reflexivity). right. injection D as <- <-. eauto. }
  destruct E as [E|(n0 & -> & -> & ->)].
  - injection E as -> ->. split; [|apply now_recent; [exact Ht|auto]]. split; [exact O1|]. split; [|exact O3]. cbn [with_names d_names]. apply set_ok; [exact C1|].
    split; [exact Ht|]. split; [intros ip K; symmetry in K; now apply (proj1 (k_ip_other ip)) in K|]. split; [|destruct f; discriminate].
    intros g K. assert (f = g) as <- by (destruct f, g; auto; discriminate). eauto.
  - destruct (C2 _ eq_refl) as (t0 & L & (T0 & _ & P1 & _)). destruct (P1 f eq_refl) as (l0 & [= <-] & HN0). split; [split; auto|]. exists t0. auto.
Qed.
Lemma sn_ok t s s' l : T t -> ok s -> self_names W t s = (s', l) -> ok s' /\ recent T (fun t0 => SN t0 l) t.
Proof.
  intros Ht (O1 & O2 & O3) D. unfold self_names in D. destruct (ca_get (d_names s) t k_names) as [c r] eqn:G.
  destruct (get_ok _ _ _ _ _ _ O2 G) as [C1 C2]. assert (O : ok (with_names c s)) by (split; auto).
  destruct r as [v|].
  - destruct (C2 v eq_refl) as (t0 & L & (T0 & _ & _ & P1)). destruct (P1 eq_refl) as (l0 & -> & HN0). injection D as <- <-. split; [exact O|]. exists t0. auto.
  - destruct (get_hostname W t false (with_names c s)) as [s1 a] eqn:A. apply hn_ok in A as [O1' RA]; auto.
    destruct (get_hostname W t true s1) as [s2 b] eqn:B. apply hn_ok in B as [O2' RB]; auto. injection D as <- <-. split; [|apply now_recent; auto].
    destruct O2' as (P1 & P2 & P3). split; [exact P1|]. split; [|exact P3]. cbn [with_names d_names]. apply set_ok; [exact P2|]. split; [exact Ht|].
    split; [intros ip K; symmetry in K; now apply (proj2 (k_ip_other ip)) in K|]. split; [intros [] K; discriminate|]. eauto.
Qed.
Lemma if_ok t s s' l : T t -> ok s -> net_ips W t s = (s', l) -> ok s' /\ recent T (fun t0 => IF t0 l) t.
Proof.
  intros Ht (O1 & O2 & O3) D. unfold net_ips in D. destruct (ca_get (d_ips s) t k_ifs) as [c r] eqn:G.
  destruct (get_ok _ _ _ _ _ _ O1 G) as [C1 C2]. destruct r as [v|].
  - destruct (C2 v eq_refl) as (t0 & L & (T0 & _ & P1 & _)). destruct (P1 eq_refl) as (l0 & -> & HN0). injection D as <- <-. split; [split; auto|]. exists t0. auto.
  - injection D as <- <-. split; [|apply now_recent; auto]. split; [|split; auto]. cbn [with_ips d_ips]. apply set_ok; [exact C1|]. split; [exact Ht|].
    split; [intros n K; symmetry in K; now apply (proj1 (k_name_other n)) in K|]. split; [eauto|]. split; discriminate.
Qed.
Lemma all_ok t (f : name -> dns -> dns * list ipaddr) L0 : T t ->
  (forall n s s' i, In n L0 -> ok s -> f n s = (s', i) -> ok s' /\ recent T (fun t0 => NA t0 n i) t) ->
  forall L ips s s' l, incl L L0 -> ok s -> all_ips f L ips s = (s', l) ->
  ok s' /\ exists is, Forall2 (fun n i => recent T (fun t0 => NA t0 n i) t) L is /\ l = fold_left (fun ips i => union ips (addr_set i)) is ips.
Proof.
  intros Ht Hf. induction L as [|n L IH]; intros ips s s' l I O D; cbn [all_ips] in D.
  - injection D as <- <-. split; [exact O|]. exists []. split; [constructor|reflexivity].
  - destruct (f n s) as [s1 i] eqn:F. apply Hf in F as [O1 R]; [|apply I; now left|exact O]. apply IH in D as [O2 (is & F2 & ->)]; [|intros x Ix; apply I; now right|exact O1].
    split; [exact O2|]. exists (i :: is). split; [constructor; auto|reflexivity].
Qed.
Lemma se_ok t (f : name -> dns -> dns * list ipaddr) s s' l : T t ->
  (forall L, recent T (fun t0 => SN t0 L) t -> forall n s s' i, In n L -> ok s -> f n s = (s', i) -> ok s' /\ recent T (fun t0 => NA t0 n i) t) ->
  ok s -> self_with W f t s = (s', l) -> ok s' /\ recent T (fun t0 => SE t0 l) t.
Proof.
  intros Ht Hf (O1 & O2 & O3) D. unfold self_with in D. destruct (ca_get (d_ips s) t k_self) as [c r] eqn:G.
  destruct (get_ok _ _ _ _ _ _ O1 G) as [C1 C2]. assert (O : ok (with_ips c s)) by (split; auto). destruct r as [v|].
  - destruct (C2 v eq_refl) as (t0 & L & (T0 & _ & _ & P1 & _)). destruct (P1 eq_refl) as (l0 & -> & HN0). injection D as <- <-. split; [exact O|]. exists t0. auto.
  - destruct (net_ips W t (with_ips c s)) as [s1 ifs] eqn:A. apply if_ok in A as [OA RA]; auto.
    destruct (self_names W t s1) as [s2 L] eqn:B. apply sn_ok in B as [OB RB]; auto.
    destruct (all_ips f L (addr_set ifs) s2) as [s3 ips] eqn:E. apply (all_ok t f L Ht (Hf L RB)) in E as [OE (is & F2 & ->)]; [|apply incl_refl|exact OB].
    injection D as <- <-. split; [|apply now_recent; [exact Ht|eauto]]. destruct OE as (P1 & P2 & P3). split; [|split; auto]. cbn [with_ips d_ips]. apply set_ok; [exact P1|].
    split; [exact Ht|]. split; [intros n K; symmetry in K; now apply (proj1 (proj2 (k_name_other n))) in K|]. split; [discriminate|]. split; [intros _; eexists; split; [reflexivity|eauto]|discriminate].
Qed.
Lemma al_ok t s s' b : T t -> ok s -> ipv6_allowed W t s = (s', b) -> ok s' /\ (d_allowed s = Some b \/ d_allowed s = None /\ recent T (fun t0 => AL t0 b) t).
Proof.
  intros Ht O0 D. pose proof O0 as (O1 & O2 & O3). unfold ipv6_allowed in D. destruct (d_allowed s) as [b0|] eqn:Da; [injection D as <- <-; split; [exact O0|now left]|].
  destruct (ca_get (d_ips s) t k_ipv6) as [c r] eqn:G.
  destruct (get_ok _ _ _ _ _ _ O1 G) as [C1 C2]. assert (O : ok (with_ips c s)) by (exact (conj C1 (proj2 O0))). destruct r as [v|].
  - destruct (C2 v eq_refl) as (t0 & L & (T0 & _ & _ & _ & P1)). destruct (P1 eq_refl) as (l0 & -> & HN0). injection D as <- <-. split; [exact O|]. right. split; [reflexivity|]. exists t0. auto.
  - assert (K : exists s1, ok s1 /\ AL t b /\ s' = with_ips (ca_set (d_ips s1) t k_ipv6 (IBool b)) s1).
    { destruct (w_sys6 W t) as [x|] eqn:Sy; [injection D as <- <-; exists (with_ips c s); auto|].
      destruct (net_ips W t (with_ips c s)) as [s1 ifs] eqn:A. apply if_ok in A as [OA RA]; auto.
      destruct ifs as [|i ifs].
      - destruct (self_with W (dns_with W (fun s => (s, true)) t) t s1) as [s2 l] eqn:B. apply se_ok in B as [OB RB]; auto.
        + injection D as <- <-. exists s2. split; [exact OB|]. split; [|reflexivity]. now apply c_al_self.
        + intros L RL n s0 s0' i I O4 E. apply (na_ok t n s0 (fun s => (s, true)) s0' i) in E; auto. intros s3 s3' b3 O3' [= <- <-]. split; [exact O3'|]. apply (c_pm_in t n L); auto.
      - injection D as <- <-. exists s1. split; [exact OA|]. split; [|reflexivity]. apply (c_al_ifs t (i :: ifs)); auto. discriminate. }
    destruct K as (s1 & (P1 & P2 & P3) & A & ->). split; [|right; split; [reflexivity|now apply now_recent]]. split; [|split; auto]. cbn [with_ips d_ips]. apply set_ok; [exact P1|].
    split; [exact Ht|]. split; [intros n K; symmetry in K; now apply (proj2 (proj2 (k_name_other n))) in K|]. split; [discriminate|]. split; [discriminate|]. eauto.
Qed.
Lemma dns_ok t n s s' l : T t -> ok s -> dns_to_ip W t n s = (s', l) -> ok s' /\ recent T (fun t0 => NA t0 n l) t.
Proof.
  intros Ht O D. apply (na_ok t n s (ipv6_allowed W t) s' l Ht); auto. intros s0 s1 b O0 A. pose proof A as A'. apply al_ok in A' as [O1 H]; auto. split; [exact O1|].
  destruct O0 as (_ & _ & S0). destruct H as [H|[H R]]; rewrite H in S0; auto.
Qed.
Lemma self_ok t s s' l : T t -> ok s -> self_ips W t s = (s', l) -> ok s' /\ recent T (fun t0 => SE t0 l) t.
Proof. intros Ht O D. apply (se_ok t (dns_to_ip W t) s s' l Ht); auto. intros L _ n s0 s1 i _ O0. now apply dns_ok. Qed.

Definition out_ok (s : dns) (o : op) (r : out) : Prop :=
  match o, r with
  | ODns t n, RIps l => recent T (fun t0 => NA t0 (Some n) l) t
  | OReverse t ip, RName n => recent T (fun t0 => RV t0 ip n) t
  | OHost t f, RName n => recent T (fun t0 => HN t0 f n) t
  | ONames t, RNames l => recent T (fun t0 => SN t0 l) t
  | OIfs t, RIps l => recent T (fun t0 => IF t0 l) t
  | OSelf t, RIps l => recent T (fun t0 => SE t0 l) t
  | OAllowed t, RBool b => d_allowed s = Some b \/ d_allowed s = None /\ recent T (fun t0 => AL t0 b) t
  | OText t a u, RIps l => match u, plain_ip a with
                           | (DnsYes | DnsWarn), [] => recent T (fun t0 => NA t0 (Some a) l) t
                           | _, p => l = p
                           end
  | (OSet _ | OForget), RNone => True
  | _, _ => False
  end.
Definition op_ok (o : op) : Prop := Forall T (time_of o) /\ match o with OSet b => ST b | _ => True end.
Lemma step_ok s o : ok s -> op_ok o -> ok (fst (dns_step W s o)) /\ out_ok s o (snd (dns_step W s o)).
Proof.
  intros O [HT HS]. destruct o as [t n|t ip|t f|t|t|t|t|t a u|b|]; cbn [dns_step time_of] in *;
    try (assert (Ht : T t) by (now inversion HT)).
  - destruct (dns_to_ip W t (Some n) s) as [s' l] eqn:D. now apply dns_ok in D.
  - destruct (ip_to_name W t ip s) as [s' l] eqn:D. now apply rv_ok in D.
  - destruct (get_hostname W t f s) as [s' l] eqn:D. now apply hn_ok in D.
  - destruct (self_names W t s) as [s' l] eqn:D. now apply sn_ok in D.
  - destruct (net_ips W t s) as [s' l] eqn:D. now apply if_ok in D.
  - destruct (self_ips W t s) as [s' l] eqn:D. now apply self_ok in D.
  - destruct (ipv6_allowed W t s) as [s' l] eqn:D. now apply al_ok in D.
  - unfold text_to_ips. destruct u, (plain_ip a) as [|i p] eqn:P; cbn [fst snd out_ok]; rewrite ?P; auto;
      destruct (dns_to_ip W t (Some a) s) as [s' l] eqn:D; apply dns_ok in D as [D1 D2]; auto; cbn [fst snd]; rewrite ?P; auto.
  - cbn. destruct O as (O1 & O2 & O3). split; [split; auto|exact I].
  - cbn. destruct O as ((O1 & _) & (O2 & _) & O3). split; [|exact I]. split; [|split; [|exact O3]]; apply empty_ok; auto.
Qed.
Lemma run_ok ops : forall s, ok s -> Forall op_ok ops -> ok (dns_from W s ops).
Proof. induction ops as [|o ops IH]; intros s O F; [exact O|]. inversion F; subst. cbn [dns_from fold_left]. apply IH; [|assumption]. now apply step_ok. Qed.
Lemma blank_ok s b : blank s b -> ST b -> ok s.
Proof. intros (B1 & B2 & B3 & B4 & B5) H. split; [now apply empty_ok|]. split; [now apply empty_ok|]. now rewrite B5. Qed.
End Just.
