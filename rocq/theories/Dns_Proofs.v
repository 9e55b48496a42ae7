(** Sets of addresses; what is asked of the system. *)
From Coq Require Import ZifyBool ZifyNat.
From Verif Require Import Base Text IPAddr_Model Utils_Model Dns_Model Dns_Spec.
Local Open Scope string_scope.
Local Open Scope list_scope.
Local Open Scope Z_scope.

Lemma ip_eq_refl a : ip_eq a a = true.
Proof. unfold ip_eq. rewrite eqb_refl. cbn [negb]. destruct (i_fam a); rewrite ?eqb_refl, ?Z.eqb_refl; reflexivity. Qed.
Lemma ip_eq_sym a b : ip_eq a b = true -> ip_eq b a = true.
Proof.
  unfold ip_eq. destruct (eqb_spec (i_fam a) (i_fam b)) as [E|]; [|discriminate]. rewrite <- E, eqb_refl. cbn [negb].
  destruct (i_fam a); try (rewrite !andb_true_iff, !Z.eqb_eq; intuition congruence). intros H. destruct (eqb_spec (i_raw a) (i_raw b)) as [E2|]; [|discriminate]. rewrite E2. apply eqb_refl.
Qed.
Lemma ip_eq_trans a b c : ip_eq a b = true -> ip_eq b c = true -> ip_eq a c = true.
Proof.
  unfold ip_eq. destruct (eqb_spec (i_fam a) (i_fam b)) as [E|]; [|discriminate]. destruct (eqb_spec (i_fam b) (i_fam c)) as [E'|]; [|discriminate]. rewrite E, E', eqb_refl. cbn [negb].
  destruct (i_fam c); try (rewrite !andb_true_iff, !Z.eqb_eq; intuition congruence). intros H1 H2. destruct (eqb_spec (i_raw a) (i_raw b)) as [E2|]; [|discriminate]. rewrite E2. exact H2.
Qed.
Lemma same_refl a : same_ip a a.
Proof. split; [reflexivity|apply ip_eq_refl]. Qed.
Lemma same_sym a b : same_ip a b -> same_ip b a.
Proof. intros [H1 H2]. split; [auto|now apply ip_eq_sym]. Qed.
Lemma same_trans a b c : same_ip a b -> same_ip b c -> same_ip a c.
Proof. intros [H1 H2] [H3 H4]. split; [congruence|now apply ip_eq_trans with b]. Qed.

Lemma mem_iff ip l : set_mem ip l = true <-> exists x, In x l /\ same_ip ip x.
Proof.
  unfold set_mem. rewrite existsb_exists. split.
  - intros (x & I & H). apply andb_true_iff in H as [H1 H2]. destruct (eqb_spec (ntoa x) (ntoa ip)) as [E|]; [|discriminate]. exists x. split; [exact I|]. split; [auto|exact H2].
  - intros (x & I & H1 & H2). exists x. split; [exact I|]. rewrite H1, eqb_refl. exact H2.
Qed.
Lemma mem_add ip x l : set_mem ip (set_add x l) = true <-> set_mem ip l = true \/ same_ip ip x.
Proof.
  unfold set_add. destruct (set_mem x l) eqn:M.
  - split; [auto|]. intros [H|H]; [exact H|]. apply mem_iff in M as (y & I & S). apply mem_iff. exists y. split; [exact I|]. now apply same_trans with x.
  - rewrite !mem_iff. split.
    + intros (y & I & S). apply in_app_or in I as [I|[<-|[]]]; [left; eauto|now right].
    + intros [(y & I & S)|S]; [exists y; split; [apply in_or_app; auto|exact S]|]. exists x. split; [apply in_or_app; right; now left|exact S].
Qed.
Lemma mem_union ip b : forall a, set_mem ip (union a b) = true <-> set_mem ip a = true \/ set_mem ip b = true.
Proof.
  induction b as [|x b IH]; intros a; cbn [union fold_left].
  - assert (E : set_mem ip [] = false) by reflexivity. rewrite E. intuition discriminate.
  - change (fold_left (fun l ip => set_add ip l) b (set_add x a)) with (union (set_add x a) b). rewrite IH, mem_add.
    rewrite (mem_iff ip (x :: b)), (mem_iff ip b). split.
    + intros [[H|H]|(y & I & S)]; [now left|right; exists x; split; [now left|exact H]|right; exists y; split; [now right|exact S]].
    + intros [H|(y & [<-|I] & S)]; [auto|auto|right; eauto].
Qed.
Lemma mem_nil ip : set_mem ip [] = false. Proof. reflexivity. Qed.
Lemma mem_addr_set ip l : set_mem ip (addr_set l) = set_mem ip l.
Proof. apply eq_true_iff_eq. change (addr_set l) with (union [] l). rewrite mem_union, mem_nil. intuition discriminate. Qed.
Lemma in_mem x l : In x l -> set_mem x l = true.
Proof. intros I. apply mem_iff. exists x. split; [exact I|apply same_refl]. Qed.

Definition eqset (a b : list ipaddr) : Prop := forall ip, set_mem ip a = set_mem ip b.
Lemma eqset_of P l l' : eqset l l' -> set_of P l -> set_of P l'.
Proof. intros E H ip. rewrite <- E. apply H. Qed.
Lemma set_of_eqset P l l' : set_of P l -> set_of P l' -> eqset l l'.
Proof. intros H1 H2 ip. apply eq_true_iff_eq. split; intros K; [apply H2, H1, K|apply H1, H2, K]. Qed.
Lemma set_of_ext P Q l : (forall ip, P ip <-> Q ip) -> set_of P l -> set_of Q l.
Proof. intros E H ip. unfold set_of in H. rewrite H. split; intros (x & Hx & S); exists x; split; auto; now apply E. Qed.
Lemma set_of_list l : set_of (fun ip => In ip l) l.
Proof. intros ip. rewrite mem_iff. reflexivity. Qed.
Lemma colon_set P l : set_of P l -> (existsb has_colon l = true <-> exists ip, P ip /\ In ":"%char (ntoa ip)).
Proof.
  intros H. rewrite existsb_exists. unfold has_colon. split.
  - intros (x & I & C). apply inb_In in C. apply in_mem in I. apply H in I as (y & Py & [E _]). exists y. rewrite <- E. auto.
  - intros (x & Px & C). assert (M : set_mem x l = true) by (apply H; exists x; split; [exact Px|apply same_refl]). apply mem_iff in M as (y & I & [E _]).
    exists y. split; [exact I|]. apply inb_In. now rewrite <- E.
Qed.
Lemma set_empty P l : set_of P l -> (l = [] <-> forall ip, ~ P ip).
Proof.
  intros H. split.
  - intros -> ip Hp. assert (M : set_mem ip [] = true) by (apply H; exists ip; split; [exact Hp|apply same_refl]). discriminate.
  - intros N. destruct l as [|x l]; [reflexivity|]. exfalso. assert (M : set_mem x (x :: l) = true) by (apply in_mem; now left).
    apply H in M as (y & Py & _). now apply (N y).
Qed.

(** ** The system's answers *)
Section W.
Variable W : world.

Lemma ips_of_mem t v6 n : forall ips ip, set_mem ip (ips_of W t v6 n ips) = true <-> set_mem ip ips = true \/
  exists h l a x, n = Some h /\ w_addrs W t v6 h = Some l /\ In a l /\ ip_new a (CFam v6) = Some x /\ is_valid x = true /\ same_ip ip x.
Proof.
  intros ips ip. unfold ips_of. destruct n as [h|].
  2:{ split; [auto|]. intros [H|(h & l & a & x & E & _)]; [exact H|discriminate]. }
  destruct (w_addrs W t v6 h) as [l|] eqn:Ew.
  2:{ split; [auto|]. intros [H|(h' & l & a & x & E & E2 & _)]; [exact H|]. injection E as <-. congruence. }
  assert (K : forall l0 ips, set_mem ip (fold_left (fun ips a => match ip_new a (CFam v6) with Some ip => if is_valid ip then set_add ip ips else ips | None => ips end) l0 ips) = true
             <-> set_mem ip ips = true \/ exists a x, In a l0 /\ ip_new a (CFam v6) = Some x /\ is_valid x = true /\ same_ip ip x).
  { clear. induction l0 as [|a l0 IH]; intros ips; [split; [auto|intros [H|(a & x & [] & _)]; exact H]|]. cbn [fold_left]. rewrite IH. clear IH.
    destruct (ip_new a (CFam v6)) as [x|] eqn:E; [destruct (is_valid x) eqn:V|].
    - rewrite mem_add. split.
      + intros [[H|H]|(b & y & I & H)]; [auto|right; exists a, x; split; [now left|auto]|right; exists b, y; split; [now right|exact H]].
      + intros [H|(b & y & [<-|I] & E' & V' & S)]; [auto| |right; exists b, y; auto]. rewrite E in E'. injection E' as <-. auto.
    - split; [intros [H|(b & y & I & H)]; [auto|right; exists b, y; split; [now right|exact H]]|]. intros [H|(b & y & [<-|I] & E' & V' & S)]; [auto| |right; exists b, y; auto]. congruence.
    - split; [intros [H|(b & y & I & H)]; [auto|right; exists b, y; split; [now right|exact H]]|]. intros [H|(b & y & [<-|I] & E' & V' & S)]; [auto| |right; exists b, y; auto]. congruence. }
  rewrite K. split; intros [H|H]; auto; right.
  - destruct H as (a & x & I & H1 & H2 & H3). exists h, l, a, x. auto 10.
  - destruct H as (h' & l' & a & x & E & E2 & I & H1 & H2 & H3). injection E as <-. rewrite Ew in E2. injection E2 as <-. exists a, x. auto.
Qed.
Lemma resolve_set t v6 n : set_of (address_of W t v6 n) (resolve W t v6 n).
Proof.
  intros ip. unfold resolve, address_of. destruct v6; rewrite ?ips_of_mem; rewrite mem_nil; split.
  - intros [[H|(h & l & a & x & E & Ew & I & H1 & H2 & S)]|(h & l & a & x & E & Ew & I & H1 & H2 & S)]; [discriminate| |];
      (exists x; split; [|exact S]); [exists false, h, l, a|exists true, h, l, a]; repeat split; auto; discriminate.
  - intros (x & ([|] & h & l & a & E & _ & Ew & I & H1 & H2) & S); [right|left; right]; exists h, l, a, x; auto 10.
  - intros [H|(h & l & a & x & E & Ew & I & H1 & H2 & S)]; [discriminate|]. exists x. split; [|exact S]. exists false, h, l, a. repeat split; auto; discriminate.
  - intros (x & ([|] & h & l & a & E & F & Ew & I & H1 & H2) & S); [now discriminate F|]. right. exists h, l, a, x. auto 10.
Qed.

Lemma ips_new_spec l : match ips_new l with
                       | Some r => (forall a, In a l -> ip_new a CUnspec <> None) /\ forall x, In x r <-> exists a, In a l /\ ip_new a CUnspec = Some x
                       | None => exists a, In a l /\ ip_new a CUnspec = None
                       end.
Proof.
  induction l as [|a l IH]; cbn [ips_new]; [split; [intros a []|]; intros x; split; [intros []|intros (a & [] & _)]|].
  destruct (ip_new a CUnspec) as [ip|] eqn:E; [|exists a; split; [now left|exact E]]. destruct (ips_new l) as [r|].
  - destruct IH as [N IH]. split; [intros b [<-|I]; [congruence|auto]|]. intros x. cbn [In]. rewrite IH. split.
    + intros [<-|(b & I & Eb)]; [exists a; split; [now left|exact E]|exists b; split; [now right|exact Eb]].
    + intros (b & [<-|I] & Eb); [left; congruence|right; eauto].
  - destruct IH as (b & I & Eb). exists b. split; [now right|exact Eb].
Qed.
Lemma if_ips_set t : set_of (interface_of W t) (if_ips W t).
Proof.
  intros ip. unfold if_ips, interface_of. destruct (w_ifs W t) as [l|].
  2:{ split; [discriminate|]. intros (x & (l & E & _) & _). discriminate. }
  pose proof (ips_new_spec l) as S. destruct (ips_new l) as [r|].
  - destruct S as [N S]. rewrite mem_addr_set, mem_iff. split.
    + intros (x & I & Sx). exists x. split; [|exact Sx]. exists l. split; [reflexivity|]. split; [exact N|]. now apply S.
    + intros (x & (l' & [= <-] & _ & H) & Sx). exists x. split; [now apply S|exact Sx].
  - destruct S as (a & I & E). split; [discriminate|]. intros (x & (l' & [= <-] & N & _) & _). now elim (N a I).
Qed.

Lemma filter_first (f : text -> bool) P l : (forall a, f a = true <-> P a) -> match filter f l with a :: _ => first_such P l a | [] => forall a, In a l -> ~ P a end.
Proof.
  intros H. induction l as [|a l IH]; cbn [filter]; [intros a []|]. destruct (f a) eqn:F.
  - exists [], l. split; [reflexivity|]. split; [now apply H|constructor].
  - assert (N : ~ P a) by (intros Pa; apply H in Pa; congruence). destruct (filter f l) as [|b r]; [intros b [<-|I]; auto|].
    destruct IH as (l1 & l2 & -> & Pb & Fa). exists (a :: l1), l2. split; [reflexivity|]. split; [exact Pb|constructor; auto].
Qed.
Lemma starts_dot_iff h a : starts_dot h a = true <-> exists x, a = h ++ tx "." ++ x.
Proof.
  unfold starts_dot. cbv zeta. rewrite eqb_eq. split.
  - intros E. exists (skipn (List.length (h ++ tx ".")) a). rewrite <- (firstn_skipn (List.length (h ++ tx ".")) a) at 1. rewrite E, <- app_assoc. reflexivity.
  - intros (x & ->). rewrite app_assoc, firstn_app, firstn_all, Nat.sub_diag. cbn [firstn]. apply app_nil_r.
Qed.
Lemma first_such_filter (P : text -> Prop) (f : text -> bool) l a : (forall a, P a -> f a = true) -> first_such P (filter f l) a -> first_such P l a.
Proof.
  intros H. revert a. induction l as [|b l IH]; intros a; cbn [filter]; [auto|]. destruct (f b) eqn:F.
  - intros (l1 & l2 & E & Pa & Fa). destruct l1 as [|c l1]; cbn [app] in E; injection E as -> E.
    + exists [], l. split; [reflexivity|]. auto.
    + inversion Fa as [|? ? N Fa']; subst. destruct (IH a) as (m1 & m2 & -> & _ & Fm); [exists l1, l2; auto|]. exists (c :: m1), m2. split; [reflexivity|]. split; [exact Pa|constructor; auto].
  - intros G. destruct (IH a G) as (m1 & m2 & -> & Pa & Fm). exists (b :: m1), m2. split; [reflexivity|]. split; [exact Pa|]. constructor; [|exact Fm]. intros Pb. apply H in Pb. congruence.
Qed.
Lemma get_fqdn_full t : full_name W t (get_fqdn W t).
Proof.
  unfold full_name, get_fqdn. destruct (w_host W t) as [h|]; [|destruct (w_fqdn W t []); reflexivity].
  destruct (w_canon W t h) as [l|]; [|destruct (w_fqdn W t h); reflexivity]. cbv zeta.
  set (f := fun a : text => negb (eqb a [])). assert (Hf : forall a, f a = true <-> a <> []) by (intros a; unfold f; rewrite negb_true_iff; apply eqb_neq).
  pose proof (filter_first (starts_dot h) _ (filter f l) (starts_dot_iff h)) as K. destruct (filter (starts_dot h) (filter f l)) as [|a r].
  - right. split.
    + intros a I (x & ->). apply (K (h ++ tx "." ++ x)); [|eauto]. apply filter_In. split; [exact I|]. apply Hf. destruct h; discriminate.
    + pose proof (filter_first f _ l Hf) as G. destruct (filter f l) as [|b q]; cbn [hd_error].
      * right. split; [|reflexivity]. intros a I. destruct a; [reflexivity|]. elim (G _ I). discriminate.
      * left. exists b. auto.
  - left. exists a. split; [|reflexivity]. apply first_such_filter with f; [|exact K]. intros b (x & ->). apply Hf. destruct h; discriminate.
Qed.
Definition host_now (t : Z) (fqdn : bool) : name :=
  let host := match w_host W t with Some h => Some (Some h) | None => None end in
  let '(a, b) := if fqdn then (get_fqdn W t, host) else (host, get_fqdn W t) in
  match a with Some n => n | None => match b with Some n => n | None => Some [] end end.
Lemma host_now_name t f : host_name W t f (host_now t f).
Proof.
  exists (get_fqdn W t). split; [apply get_fqdn_full|]. unfold host_now. cbv zeta. change (option_map (@Some text) (w_host W t)) with (match w_host W t with Some h => Some (Some h) | None => None end).
  destruct f; cbn; [destruct (get_fqdn W t); [reflexivity|]|]; destruct (w_host W t); reflexivity.
Qed.
Lemma full_name_fun t a b : full_name W t a -> full_name W t b -> a = b.
Proof.
  assert (U : forall (P : text -> Prop) l a b, first_such P l a -> first_such P l b -> a = b).
  { clear. intros P l a b (l1 & l2 & -> & Pa & Fa) (m1 & m2 & E & Pb & Fb). revert m1 E Fb. induction l1 as [|c l1 IH]; intros m1 E Fb.
    - destruct m1 as [|d m1]; cbn in E; [congruence|]. injection E as <- _. inversion Fb. contradiction.
    - destruct m1 as [|d m1]; cbn in E; injection E as -> E; inversion Fa; subst; [contradiction|]. inversion Fb; subst. eauto. }
  unfold full_name. destruct (w_host W t) as [h|]; [|congruence]. destruct (w_canon W t h) as [l|]; [|congruence].
  assert (IN : forall (P : text -> Prop) a, first_such P l a -> In a l /\ P a) by (intros P x (l1 & l2 & -> & H & _); split; [apply in_or_app; right; now left|exact H]).
  intros [(x & F1 & ->)|(N1 & [(x & F1 & ->)|(N1' & ->)])] [(y & F2 & ->)|(N2 & [(y & F2 & ->)|(N2' & ->)])]; try reflexivity.
  - now rewrite (U _ _ _ _ F1 F2).
  - apply IN in F1 as [I P]. now elim (N2 x I).
  - apply IN in F1 as [I P]. now elim (N2 x I).
  - apply IN in F2 as [I P]. now elim (N1 y I).
  - now rewrite (U _ _ _ _ F1 F2).
  - apply IN in F1 as [I P]. now elim (P (N2' x I)).
  - apply IN in F2 as [I P]. now elim (N1 y I).
  - apply IN in F2 as [I P]. now elim (P (N1' y I)).
Qed.
Lemma host_name_fun t f a b : host_name W t f a -> host_name W t f b -> a = b.
Proof. intros (x & Hx & Ea) (y & Hy & Eb). rewrite (full_name_fun t x y Hx Hy) in Ea. cbv zeta in *. destruct f; congruence. Qed.
End W.
