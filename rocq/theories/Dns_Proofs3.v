(** The notions of the specification are closed under the steps. *)
From Coq Require Import ZifyBool ZifyNat.
From Verif Require Import Base Text IPAddr_Model Utils_Model Dns_Model Dns_Spec Dns_Proofs Dns_Proofs2.
Local Open Scope string_scope.
Local Open Scope list_scope.
Local Open Scope Z_scope.

Lemma recent_imp (T X Y : Z -> Prop) t : (forall t0, T t0 -> X t0 -> Y t0) -> recent T X t -> recent T Y t.
Proof. intros H (t0 & H1 & H2 & H3). exists t0. auto. Qed.

Lemma names_in a b n : In n (filter (fun n => negb (eqb n (Some []))) (name_add b (name_add a [Some (tx "localhost")])))
  <-> (n = Some (tx "localhost") \/ n = a \/ n = b) /\ n <> Some [].
Proof.
  rewrite filter_In. assert (E : negb (eqb n (Some [])) = true <-> n <> Some []).
  { destruct (eqb_spec n (Some [])) as [->|N]; cbn; intuition congruence. }
  rewrite E. assert (A : forall x l, In n (name_add x l) <-> In n l \/ n = x).
  { intros x l. unfold name_add. destruct (inb x l) eqn:I; [apply inb_In in I; split; [auto|intros [H| ->]; assumption]|rewrite in_app_iff; cbn; intuition (subst; auto)]. }
  rewrite !A. cbn [In]. intuition congruence.
Qed.
Lemma fold_union ip is : forall a, set_mem ip (fold_left (fun ips i => union ips (addr_set i)) is a) = true
  <-> set_mem ip a = true \/ exists i, In i is /\ set_mem ip i = true.
Proof.
  induction is as [|i is IH]; intros a; cbn [fold_left].
  - split; [auto|]. intros [H|(i & [] & _)]. exact H.
  - rewrite IH, mem_union, mem_addr_set. split.
    + intros [[H|H]|(j & I & H)]; [now left|right; exists i; split; [now left|exact H]|right; exists j; split; [now right|exact H]].
    + intros [H|(j & [<-|I] & H)]; [auto|auto|right; eauto].
Qed.
Lemma mem_set P l ip : set_of P l -> P ip -> set_mem ip l = true.
Proof. intros H Hp. apply H. exists ip. split; [exact Hp|apply same_refl]. Qed.

Section Inst.
Variable W : world.
Variable T : Z -> Prop.
Variable PM : Z -> name -> bool -> Prop.
Variable ST : option bool -> Prop.

Definition NA t n l := exists v6, PM t n v6 /\ set_of (address_of W t v6 n) l.
Definition IFS t l := set_of (interface_of W t) l.
Definition RV t ip n := n = w_reverse W t ip.

Lemma i_na t n v6 : T t -> PM t n v6 -> NA t n (resolve W t v6 n).
Proof. intros _ H. exists v6. split; [exact H|apply resolve_set]. Qed.
Lemma i_if t : T t -> IFS t (if_ips W t).
Proof. intros _. apply if_ips_set. Qed.
Lemma i_hn t f : T t -> host_name W t f (host_now W t f).
Proof. intros _. apply host_now_name. Qed.
Lemma i_sn t a b : T t -> recent T (fun t0 => host_name W t0 false a) t -> recent T (fun t0 => host_name W t0 true b) t ->
  own_names W T t (filter (fun n => negb (eqb n (Some []))) (name_add b (name_add a [Some (tx "localhost")]))).
Proof. intros _ H1 H2. exists a, b. split; [exact H1|]. split; [exact H2|]. intros n. apply names_in. Qed.
Lemma i_se t ifs L is : T t -> recent T (fun t0 => IFS t0 ifs) t -> recent T (fun t0 => own_names W T t0 L) t ->
  Forall2 (fun n i => recent T (fun t0 => NA t0 n i) t) L is -> own_ips W T PM t (fold_left (fun ips i => union ips (addr_set i)) is (addr_set ifs)).
Proof.
  intros _ (t1 & T1 & R1 & H1) H2 H3.
  assert (K : exists answers : list (name * (ipaddr -> Prop)), map fst answers = L
    /\ (forall n A, In (n, A) answers -> recent T (fun t0 => exists v6, PM t0 n v6 /\ forall ip, A ip <-> address_of W t0 v6 n ip) t)
    /\ (forall ip, (exists i, In i is /\ set_mem ip i = true) <-> exists n A ip', In (n, A) answers /\ A ip' /\ same_ip ip ip')).
  { clear H2. induction H3 as [|n i L is (t2 & T2 & R2 & (v6 & P2 & S2)) F (an & E & HA & HS)].
    - exists []. split; [reflexivity|]. split; [intros n A []|]. intros ip. split; [intros (i & [] & _)|intros (n & A & ip' & [] & _)].
    - exists ((n, address_of W t2 v6 n) :: an). cbn [map fst]. split; [now rewrite E|]. split.
      + intros m A [E1|I]; [|now apply HA]. injection E1 as <- <-. exists t2. split; [exact T2|]. split; [exact R2|]. exists v6. split; [exact P2|reflexivity].
      + intros ip. split.
        * intros (j & [<-|I] & M).
          -- apply S2 in M as (ip' & A & S). exists n, (address_of W t2 v6 n), ip'. split; [now left|]. auto.
          -- destruct (proj1 (HS ip) (ex_intro _ j (conj I M))) as (m & A & ip' & I' & H). exists m, A, ip'. split; [now right|exact H].
        * intros (m & A & ip' & [E1|I] & HA' & S).
          -- injection E1 as <- <-. exists i. split; [now left|]. apply S2. exists ip'. auto.
          -- destruct (proj2 (HS ip)) as (j & I' & M); [exists m, A, ip'; auto|]. exists j. split; [now right|exact M]. }
  destruct K as (an & E & HA & HS). exists (interface_of W t1), an. split; [exists t1; split; [exact T1|]; split; [exact R1|reflexivity]|].
  rewrite E. split; [exact H2|]. split; [exact HA|]. intros ip. rewrite fold_union, mem_addr_set, HS. split.
  - intros [M|(n & A & ip' & I & H & S)].
    + apply H1 in M as (ip' & Hi & S). exists ip'. auto.
    + exists ip'. split; [|exact S]. right. eauto.
  - intros (ip' & [Hi|(n & A & I & H)] & S); [left; apply H1; eauto|right; exists n, A, ip'; auto].
Qed.
Lemma i_al_sys t b : T t -> w_sys6 W t = Some b -> detected W T PM t b.
Proof. intros _ H. unfold detected. now rewrite H. Qed.
Lemma i_al_ifs t ifs : T t -> w_sys6 W t = None -> recent T (fun t0 => IFS t0 ifs) t -> ifs <> [] -> detected W T PM t (existsb has_colon ifs).
Proof.
  intros _ H (t1 & T1 & R1 & H1) N. unfold detected. rewrite H. exists (interface_of W t1). split; [exists t1; split; [exact T1|]; split; [exact R1|reflexivity]|].
  left. split; [|now apply colon_set]. destruct ifs as [|i ifs]; [contradiction|]. assert (M : set_mem i (i :: ifs) = true) by (apply in_mem; now left). apply H1 in M as (ip & Hi & _). eauto.
Qed.
Lemma i_al_self t l : T t -> w_sys6 W t = None -> recent T (fun t0 => IFS t0 []) t -> recent T (fun t0 => own_ips W T PM t0 l) t -> detected W T PM t (existsb has_colon l).
Proof.
  intros _ H (t1 & T1 & R1 & H1) RO. unfold detected. rewrite H. exists (interface_of W t1). split; [exists t1; split; [exact T1|]; split; [exact R1|reflexivity]|].
  right. split; [now apply (set_empty _ _ H1)|]. exists l. split; [exact RO|]. apply colon_set. apply set_of_list.
Qed.

Definition okay : dns -> Prop := ok T NA IFS (own_ips W T PM) (detected W T PM) (host_name W) (own_names W T) RV ST.
Definition out_okay : dns -> op -> out -> Prop := out_ok T NA IFS (own_ips W T PM) (detected W T PM) (host_name W) (own_names W T) RV.
Hypothesis c_pm_set : forall t n b, ST (Some b) -> PM t n b.
Hypothesis c_pm_al : forall t n b, ST None -> recent T (fun t0 => detected W T PM t0 b) t -> PM t n b.
Hypothesis c_pm_in : forall t n L, T t -> ST None -> w_sys6 W t = None -> recent T (fun t0 => IFS t0 []) t -> recent T (fun t0 => own_names W T t0 L) t -> In n L -> PM t n true.
Lemma step_okay s o : okay s -> op_ok T ST o -> okay (fst (dns_step W s o)) /\ out_okay s o (snd (dns_step W s o)).
Proof.
  apply (step_ok W T NA IFS (own_ips W T PM) (detected W T PM) (host_name W) (own_names W T) RV PM ST
           i_na i_if i_hn i_sn (fun t ip _ => eq_refl) i_se i_al_sys i_al_ifs i_al_self c_pm_set c_pm_al c_pm_in).
Qed.
Lemma from_okay ops : forall s, okay s -> Forall (op_ok T ST) ops -> okay (dns_from W s ops).
Proof. induction ops as [|o ops IH]; intros s O F; [exact O|]. inversion F; subst. cbn [dns_from fold_left]. apply IH; [|assumption]. now apply step_okay. Qed.
Lemma run_okay s b ops o : blank s b -> ST b -> Forall (op_ok T ST) (ops ++ [o]) -> out_okay (dns_from W s ops) o (snd (dns_step W (dns_from W s ops) o)).
Proof.
  intros B Sb F. apply Forall_app in F as [F1 F2]. inversion F2; subst. apply step_okay; [|assumption]. apply from_okay; [|exact F1]. now apply (blank_ok T NA IFS _ _ _ _ _ _ s b).
Qed.
End Inst.

Lemma own_ips_mono W T (P Q : Z -> name -> bool -> Prop) t l : (forall t n b, P t n b -> Q t n b) -> own_ips W T P t l -> own_ips W T Q t l.
Proof.
  intros H (ifs & an & H1 & H2 & H3 & H4). exists ifs, an. split; [exact H1|]. split; [exact H2|]. split; [|exact H4]. intros n A I. apply recent_imp with (2 := H3 n A I).
  intros t0 _ (v6 & Hp & Ha). exists v6. auto.
Qed.
Lemma detected_mono W T (P Q : Z -> name -> bool -> Prop) t b : (forall t n b, P t n b -> Q t n b) -> detected W T P t b -> detected W T Q t b.
Proof.
  intros H. unfold detected. destruct (w_sys6 W t); [auto|]. intros (ifs & H1 & [H2|(H2 & l & H3 & H4)]); exists ifs; (split; [exact H1|]); [now left|right].
  split; [exact H2|]. exists l. split; [|exact H4]. apply recent_imp with (2 := H3). intros t0 _. now apply own_ips_mono.
Qed.
Lemma auto_al W T t n b : recent T (fun t0 => detected W T (auto_perm W T) t0 b) t -> auto_perm W T t n b.
Proof. intros H. left. apply recent_imp with (2 := H). intros t0 _. now apply detected_mono. Qed.
Lemma auto_in W (T : Z -> Prop) t n L : T t -> w_sys6 W t = None -> recent T (fun t0 => IFS W t0 []) t -> recent T (fun t0 => own_names W T t0 L) t -> In n L -> auto_perm W T t n true.
Proof.
  intros _ H1 H2 H3 I. right. split; [reflexivity|]. split; [exact H1|]. split; [|eauto]. apply recent_imp with (2 := H2). intros t0 _ H. now apply (set_empty _ _ H).
Qed.

(** ** A world that does not change *)
Section Const.
Variable W : world.
Hypothesis CW : constant W.
Variable set6 : option bool.
Lemma k_addr t v6 n ip : address_of W t v6 n ip <-> address_of W 0 v6 n ip.
Proof. split; intros (f & h & l & a & E & F & H); exists f, h, l, a; (split; [exact E|]); (split; [exact F|]); [rewrite (cw_addrs W CW 0 t)|rewrite (cw_addrs W CW t 0)]; exact H. Qed.
Lemma k_ifs_of t ip : interface_of W t ip <-> interface_of W 0 ip.
Proof. split; intros (l & E & H); exists l; (split; [|exact H]); [rewrite (cw_ifs W CW 0 t)|rewrite (cw_ifs W CW t 0)]; exact E. Qed.
Lemma k_full t r : full_name W t r <-> full_name W 0 r.
Proof.
  unfold full_name. rewrite (cw_host W CW t 0). destruct (w_host W 0) as [h|]; [|now rewrite (cw_fqdn W CW t 0)].
  rewrite (cw_canon W CW t 0). destruct (w_canon W 0 h); [reflexivity|]. now rewrite (cw_fqdn W CW t 0 h).
Qed.
Lemma k_host t f n : host_name W t f n <-> host_name W 0 f n.
Proof. unfold host_name. rewrite (cw_host W CW t 0). split; intros (r & F & H); exists r; (split; [|exact H]); [exact (proj1 (k_full t r) F)|exact (proj2 (k_full t r) F)]. Qed.
Lemma ipv6_fun a b : the_ipv6 W set6 a -> the_ipv6 W set6 b -> a = b.
Proof.
  unfold the_ipv6. destruct set6 as [x|]; [congruence|]. destruct (w_sys6 W 0); [congruence|].
  assert (U : forall P, (a = true <-> P) -> (b = true <-> P) -> a = b) by (intros P H K; destruct a, b; try reflexivity; [symmetry; apply K, H; reflexivity|apply H, K; reflexivity]).
  intros [[[i Hi] H]|[N H]] [[[j Hj] K]|[M K]]; [exact (U _ H K)|elim (M i Hi)|elim (N j Hj)|exact (U _ H K)].
Qed.
Lemma addr_mono v6 v6' n ip : (v6 = true -> v6' = true) -> address_of W 0 v6 n ip -> address_of W 0 v6' n ip.
Proof. intros H (f & h & l & a & E & F & R). exists f, h, l, a. split; [exact E|]. split; [auto|exact R]. Qed.
Lemma own_mono v6 v6' ip : (v6 = true -> v6' = true) -> the_own W v6 ip -> the_own W v6' ip.
Proof. intros H [I|(n & Hn & A)]; [now left|right]. exists n. split; [exact Hn|]. now apply addr_mono with v6. Qed.

Definition kNA (t : Z) (n : name) l := exists v6, asked6 W set6 v6 /\ set_of (address_of W 0 v6 n) l.
Definition kIF (t : Z) l := set_of (interface_of W 0) l.
Definition kHN (t : Z) f n := host_name W 0 f n.
Definition kSN (t : Z) l := forall n, In n l <-> the_names W n.
Definition kRV (t : Z) ip n := n = w_reverse W 0 ip.
Definition kSE (t : Z) l := (forall ip, set_mem ip l = true -> exists v6 ip', asked6 W set6 v6 /\ the_own W v6 ip' /\ same_ip ip ip')
  /\ forall v6 ip, the_ipv6 W set6 v6 -> the_own W v6 ip -> set_mem ip l = true.
Definition kAL (t : Z) b := set6 = None -> the_ipv6 W None b.
Definition kT (t : Z) := True.
Lemma kr (X : Prop) t : recent kT (fun _ => X) t -> X.
Proof. now intros (t0 & _ & _ & H). Qed.
Lemma k_sn t a b : kT t -> recent kT (fun t0 => kHN t0 false a) t -> recent kT (fun t0 => kHN t0 true b) t ->
  kSN t (filter (fun n => negb (eqb n (Some []))) (name_add b (name_add a [Some (tx "localhost")]))).
Proof.
  intros _ H1 H2. apply kr in H1, H2. intros n. rewrite names_in. unfold the_names.
  assert (E1 : n = a <-> host_name W 0 false n) by (split; [intros ->; exact H1|intros H; now apply (host_name_fun W 0 false)]).
  assert (E2 : n = b <-> host_name W 0 true n) by (split; [intros ->; exact H2|intros H; now apply (host_name_fun W 0 true)]). now rewrite E1, E2.
Qed.
Lemma k_se t ifs L is : kT t -> recent kT (fun t0 => kIF t0 ifs) t -> recent kT (fun t0 => kSN t0 L) t ->
  Forall2 (fun n i => recent kT (fun t0 => kNA t0 n i) t) L is -> kSE t (fold_left (fun ips i => union ips (addr_set i)) is (addr_set ifs)).
Proof.
  intros _ H1 H2 F. apply kr in H1, H2.
  assert (K : forall i, In i is -> exists n, In n L /\ kNA 0 n i).
  { clear H2. induction F as [|n i L is R F IH]; [intros i []|]. intros j [<-|I]; [exists n; split; [now left|now apply kr in R]|]. destruct (IH j I) as (m & I' & H). exists m. split; [now right|exact H]. }
  assert (K' : forall n, In n L -> exists i, In i is /\ kNA 0 n i).
  { clear H2. clear K. induction F as [|n i L is R F IH]; [intros i []|]. intros j [<-|I]; [exists i; split; [now left|now apply kr in R]|]. destruct (IH j I) as (m & I' & H). exists m. split; [now right|exact H]. }
  split.
  - intros ip M. apply fold_union in M as [M|(i & I & M)].
    + rewrite mem_addr_set in M. apply H1 in M as (ip' & Hi & S). 
      assert (A : exists v6, asked6 W set6 v6).
      { destruct is as [|i is]; [|destruct (K i (or_introl eq_refl)) as (n & _ & v6 & A & _); eauto].
        inversion F; subst. exfalso. assert (N : the_names W (Some (tx "localhost"))) by (split; [now left|discriminate]). now apply H2 in N. }
      destruct A as (v6 & A). exists v6, ip'. split; [exact A|]. split; [now left|exact S].
    + destruct (K i I) as (n & In' & v6 & A & S1). destruct (proj1 (S1 ip) M) as (ip' & Ha & S'). exists v6, ip'. split; [exact A|]. split; [right; exists n; split; [now apply H2|exact Ha]|exact S'].
  - intros v6 ip Hv [Hi|(n & Hn & Ha)]; apply fold_union; [left; rewrite mem_addr_set; now apply (mem_set _ _ _ H1)|right].
    apply H2 in Hn. destruct (K' n Hn) as (i & I & w6 & A & S). exists i. split; [exact I|]. apply (mem_set _ _ _ S). apply addr_mono with v6; [|exact Ha].
    intros ->. destruct A as [A|[A _]]; [|exact A]. symmetry. now apply ipv6_fun.
Qed.
Lemma asked_true v6 ip : set6 = None -> the_own W v6 ip -> the_own W true ip.
Proof. intros _. now apply own_mono. Qed.
Lemma k_al_sys t b : kT t -> w_sys6 W t = Some b -> kAL t b.
Proof. intros _ H _. unfold the_ipv6. now rewrite (cw_sys6 W CW 0 t), H. Qed.
Lemma k_al_ifs t ifs : kT t -> w_sys6 W t = None -> recent kT (fun t0 => kIF t0 ifs) t -> ifs <> [] -> kAL t (existsb has_colon ifs).
Proof.
  intros _ H H1 N _. apply kr in H1. unfold the_ipv6. rewrite (cw_sys6 W CW 0 t), H. left. split; [|now apply colon_set].
  destruct ifs as [|i ifs]; [contradiction|]. assert (M : set_mem i (i :: ifs) = true) by (apply in_mem; now left). apply H1 in M as (ip & Hi & _). eauto.
Qed.
Lemma k_al_self t l : kT t -> w_sys6 W t = None -> recent kT (fun t0 => kIF t0 []) t -> recent kT (fun t0 => kSE t0 l) t -> kAL t (existsb has_colon l).
Proof.
  intros _ H H1 [S1 S2]%kr E. apply kr in H1. pose proof (proj1 (set_empty _ _ H1) eq_refl) as N. rewrite (cw_sys6 W CW t 0) in H. unfold the_ipv6. rewrite H. right. split; [exact N|].
  rewrite (colon_set _ _ (set_of_list l)). split.
  - intros (ip & I & C). apply in_mem in I. apply S1 in I as (v6 & ip' & _ & O & [S _]). exists ip'. rewrite <- S. split; [now apply own_mono with v6|exact C].
  - intros (ip & O & C). assert (V : the_ipv6 W set6 true) by (rewrite E; unfold the_ipv6; rewrite H; right; split; [exact N|]; split; [intros _; eauto|reflexivity]).
    apply (S2 true ip V) in O. apply mem_iff in O as (x & I & [S _]). exists x. rewrite <- S. auto.
Qed.
Definition kPM (t : Z) (n : name) v6 := asked6 W set6 v6.
Lemma k_step s o : ok kT kNA kIF kSE kAL kHN kSN kRV (eq set6) s -> op_ok kT (eq set6) o ->
  ok kT kNA kIF kSE kAL kHN kSN kRV (eq set6) (fst (dns_step W s o)) /\ out_ok kT kNA kIF kSE kAL kHN kSN kRV s o (snd (dns_step W s o)).
Proof.
  apply (step_ok W kT kNA kIF kSE kAL kHN kSN kRV kPM (eq set6)).
  - intros t n v6 _ H. exists v6. split; [exact H|]. apply set_of_ext with (2 := resolve_set W t v6 n). intros ip. apply k_addr.
  - intros t _. apply set_of_ext with (2 := if_ips_set W t). intros ip. apply k_ifs_of.
  - intros t f _. apply (proj1 (k_host t f _)). apply host_now_name.
  - apply k_sn.
  - intros t ip _. apply (cw_reverse W CW).
  - apply k_se.
  - apply k_al_sys.
  - apply k_al_ifs.
  - apply k_al_self.
  - intros t n b E. left. rewrite E. reflexivity.
  - intros t n b E H. apply kr in H. left. rewrite E. auto.
  - intros t n L _ E H H1 _ _. apply kr in H1. right. split; [reflexivity|]. split; [exact E|]. split; [now rewrite (cw_sys6 W CW 0 t)|]. now apply (set_empty _ _ H1).
Qed.
Lemma k_run s ops o : blank s set6 -> forallb (fun o => negb (sets o)) (ops ++ [o]) = true -> out_ok kT kNA kIF kSE kAL kHN kSN kRV (dns_from W s ops) o (snd (dns_step W (dns_from W s ops) o))
  /\ d_allowed (dns_from W s ops) = set6.
Proof.
  intros B F. rewrite forallb_app in F. apply andb_true_iff in F as [F1 F2]. cbn [forallb] in F2. rewrite andb_true_r in F2.
  assert (K : forall o, negb (sets o) = true -> op_ok kT (eq set6) o).
  { clear. intros o H. split; [apply Forall_forall; intros; exact I|]. destruct o; try exact I. discriminate. }
  assert (O : ok kT kNA kIF kSE kAL kHN kSN kRV (eq set6) (dns_from W s ops)).
  { assert (O : ok kT kNA kIF kSE kAL kHN kSN kRV (eq set6) s) by (now apply (blank_ok kT kNA kIF kSE kAL kHN kSN kRV (eq set6) s set6)).
    clear B. revert s O. induction ops as [|a ops IH]; intros s O; [exact O|]. cbn [forallb] in F1. apply andb_true_iff in F1 as [Fa F1]. cbn [dns_from fold_left]. apply (IH F1). apply k_step; auto. }
  split; [apply k_step; auto|]. symmetry. apply O.
Qed.
End Const.
