(** Proofs about setting up the server, part 4: the settings of the server itself. *)
From Coq Require Import Permutation Sorted.
From Verif Require Import Base Text Options_Model Options_Spec.
From Verif Require Stream_Model Stream_Spec Stream_Props.
From Verif Require Import Server_Model Server_Spec Server_Proofs Setup_Model Setup_Spec.
Local Open Scope string_scope.
Local Open Scope list_scope.
Local Open Scope Z_scope.

(** ** Sorting *)
Notation item := (Z * (text * gval))%type.
Fixpoint pos (k : text) (l : list text) : nat := match l with [] => O | x :: l => if eqb x k then O else S (pos k l) end.
Lemma order_known k z : order k = Some z -> In k sending_order.
Proof.
  intros H. unfold order in H. assert (In k (map fst [(tx "thread", 0); (tx "syslogsocket", 11); (tx "loglevel", 12); (tx "logtarget", 13); (tx "allowipv6", 14);
          (tx "dbfile", 50); (tx "dbmaxmatches", 51); (tx "dbpurgeage", 51)])) as I.
  { apply dget_In in H. apply in_map_iff. exists (k, z). auto. }
  exact I.
Qed.
Lemma before_pos k1 k2 z1 z2 v1 v2 : order k1 = Some z1 -> order k2 = Some z2 ->
  before (z1, (k1, v1)) (z2, (k2, v2)) = Nat.leb (pos k1 sending_order) (pos k2 sending_order).
Proof.
  intros H1 H2. assert (A : forallb (fun a => forallb (fun b => match order a, order b with
      | Some x, Some y => Bool.eqb ((x <? y) || (x =? y) && text_le a b) (Nat.leb (pos a sending_order) (pos b sending_order)) | _, _ => false end) sending_order) sending_order = true) by (vm_compute; reflexivity).
  rewrite forallb_forall in A. specialize (A k1 (order_known _ _ H1)). rewrite forallb_forall in A. specialize (A k2 (order_known _ _ H2)). rewrite H1, H2 in A.
  apply Bool.eqb_prop in A. exact A.
Qed.
Definition good_item (x : item) : Prop := order (fst (snd x)) = Some (fst x).
Definition le_item (x y : item) : Prop := (pos (fst (snd x)) sending_order <= pos (fst (snd y)) sending_order)%nat.
Lemma before_le x y : good_item x -> good_item y -> before x y = true <-> le_item x y.
Proof. destruct x as [z1 [k1 v1]], y as [z2 [k2 v2]]. intros H1 H2. rewrite (before_pos _ _ _ _ _ _ H1 H2). apply Nat.leb_le. Qed.
Lemma insert_perm x l : Permutation (x :: l) (insert x l).
Proof. induction l as [|y l IH]; [auto|]. cbn. destruct (before x y); [auto|]. eapply perm_trans; [apply perm_swap|]. now constructor. Qed.
Lemma insert_sorted x l : good_item x -> Forall good_item l -> StronglySorted le_item l -> StronglySorted le_item (insert x l).
Proof.
  intros Gx G S. induction S as [|y l S IH Fy]; [repeat constructor|]. apply Forall_cons_iff in G as [Gy G]. cbn. destruct (before x y) eqn:B.
  - apply before_le in B; auto. constructor; [constructor; auto|]. constructor; [exact B|]. eapply Forall_impl; [|exact Fy]. unfold le_item in *. intros z. lia.
  - assert (L : le_item y x). { unfold le_item. destruct (Nat.le_gt_cases (pos (fst (snd x)) sending_order) (pos (fst (snd y)) sending_order)) as [K|K]; [|lia]. apply before_le in K; auto. congruence. }
    constructor; [auto|]. rewrite Forall_forall. intros z I. apply (Permutation_in z (Permutation_sym (insert_perm x l))) in I as [<-|I]; [exact L|]. rewrite Forall_forall in Fy. auto.
Qed.
Lemma sort_perm l : Permutation l (fold_right insert [] l).
Proof. induction l as [|x l IH]; [constructor|]. cbn. eapply perm_trans; [apply perm_skip, IH|apply insert_perm]. Qed.
Lemma sort_sorted l : Forall good_item l -> StronglySorted le_item (fold_right insert [] l).
Proof.
  intros G. induction G as [|x l Gx G IH]; [constructor|]. cbn. apply insert_sorted; auto. rewrite Forall_forall in *. intros y I. apply G. exact (Permutation_in y (Permutation_sym (sort_perm l)) I).
Qed.
Lemma sorted_unique (l : list item) : forall l', Permutation l l' -> StronglySorted le_item l -> StronglySorted le_item l' ->
  (forall x y, In x l -> In y l -> le_item x y -> le_item y x -> x = y) -> l = l'.
Proof.
  induction l as [|x l IH]; intros l' P S S' AS; [symmetry; now apply Permutation_nil|].
  destruct l' as [|y l']; [apply Permutation_sym, Permutation_nil in P; discriminate|]. inversion S as [|? ? S1 F1]; subst. inversion S' as [|? ? S2 F2]; subst. rewrite Forall_forall in F1, F2.
  assert (x = y) as <-.
  { assert (Iy : In y (x :: l)) by (apply (Permutation_in y (Permutation_sym P)); now left). assert (Ix : In x (y :: l')) by (apply (Permutation_in x P); now left).
    destruct Iy as [|Iy]; [assumption|]. destruct Ix as [|Ix]; [now symmetry|]. apply AS; [now left|now right|now apply F1|now apply F2]. }
  f_equal. apply IH; auto; [now apply Permutation_cons_inv in P|]. intros a b Ia Ib. apply AS; now right.
Qed.

Lemma pos_inj l : forall a b, In a l -> In b l -> pos a l = pos b l -> a = b.
Proof.
  induction l as [|x l IH]; intros a b Ia Ib H; [contradiction|]. cbn in H. destruct (eqb_spec x a) as [<-|Na], (eqb_spec x b) as [<-|Nb]; try discriminate; [reflexivity|].
  injection H as H. destruct Ia as [|Ia]; [contradiction|]. destruct Ib as [|Ib]; [contradiction|]. now apply IH.
Qed.
Lemma dget_iff {V} (d : dict text V) k v : dwf d -> In (k, v) d <-> dget k d = Some v.
Proof. intros W. split; [now apply In_dget|apply dget_In]. Qed.
Definition canon (o : dict text gval) (l : list text) : list item :=
  flat_map (fun k => match order k, dget k o with Some z, Some v => [(z, (k, v))] | _, _ => [] end) l.
Lemma canon_In o l z k v : In (z, (k, v)) (canon o l) <-> In k l /\ order k = Some z /\ dget k o = Some v.
Proof.
  unfold canon. rewrite in_flat_map. split.
  - intros (k' & I & H). destruct (order k') as [z'|] eqn:O, (dget k' o) as [v'|] eqn:D; try contradiction. destruct H as [[= -> -> ->]|[]]. auto.
  - intros (I & O & D). exists k. split; [exact I|]. rewrite O, D. now left.
Qed.
Lemma canon_nodup o l : NoDup l -> NoDup (canon o l).
Proof.
  induction 1 as [|k l N ND IH]; [constructor|]. unfold canon in *. cbn [flat_map]. destruct (order k) as [z|] eqn:O; [|exact IH]. destruct (dget k o) as [v|] eqn:D; [|exact IH]. cbn [app]. constructor; [|exact IH].
  intros I. apply (canon_In o l) in I as (I & _). contradiction.
Qed.
Lemma sending_nodup : NoDup sending_order.
Proof. apply Stream_Props.nodupb_ok. vm_compute. reflexivity. Qed.
Lemma canon_sorted o l : NoDup l -> (forall a x b y c, l = a ++ x :: b ++ y :: c -> (pos x sending_order <= pos y sending_order)%nat) -> StronglySorted le_item (canon o l).
Proof.
  intros ND. induction ND as [|k l N ND IH]; intros H; [constructor|]. assert (S : StronglySorted le_item (canon o l)) by (apply IH; intros a x b y c ->; apply (H (k :: a) x b y c); reflexivity).
  unfold canon in *. cbn [flat_map]. destruct (order k) as [z|] eqn:O; [|exact S]. destruct (dget k o) as [v|] eqn:D; [|exact S]. cbn [app]. constructor; [exact S|]. apply Forall_forall. intros [z' [k' v']] I.
  apply (canon_In o l) in I as (I & _). apply in_split in I as (b & c & ->). unfold le_item. cbn [fst snd]. now apply (H [] k b k' c).
Qed.
Lemma pos_split (a : list text) x b y c : NoDup (a ++ x :: b ++ y :: c) -> (pos x (a ++ x :: b ++ y :: c) <= pos y (a ++ x :: b ++ y :: c))%nat.
Proof.
  induction a as [|u a IH]; intros ND; cbn [app pos] in *.
  - rewrite eqb_refl. lia.
  - apply NoDup_cons_iff in ND as [N ND]. destruct (eqb_spec u x) as [->|]; [lia|]. destruct (eqb_spec u y) as [->|]; [exfalso; apply N; rewrite in_app_iff; right; right; rewrite in_app_iff; right; now left|].
    apply le_n_S. now apply IH.
Qed.
Lemma convert_canon o : dwf o -> main_convert o = map snd (canon o sending_order).
Proof.
  intros W. unfold main_convert. f_equal. set (l := flat_map _ o).
  assert (L : forall z k v, In (z, (k, v)) l <-> order k = Some z /\ In (k, v) o).
  { intros z k v. unfold l. rewrite in_flat_map. split.
    - intros ([k' v'] & I & H). cbn [fst] in H. destruct (order k') as [z'|] eqn:O; [|contradiction]. destruct H as [[= -> -> ->]|[]]. auto.
    - intros [O I]. exists (k, v). split; [exact I|]. cbn [fst]. rewrite O. now left. }
  assert (NDl : NoDup l).
  { unfold l. clear L. unfold dwf in W. induction o as [|[k v] o IH]; [constructor|]. cbn [dkeys map fst flat_map] in W |- *. apply NoDup_cons_iff in W as [N W]. destruct (order k) as [z|]; [|now apply IH]. cbn [app]. constructor; [|now apply IH].
    intros I. apply in_flat_map in I as ([k' v'] & I & H). cbn [fst] in H. destruct (order k'); [|contradiction]. destruct H as [[= _ -> ->]|[]]. apply N. apply in_map_iff. exists (k, v). auto. }
  assert (G : Forall good_item l) by (apply Forall_forall; intros [z [k v]] I; now apply L in I).
  apply sorted_unique.
  - eapply perm_trans; [apply Permutation_sym, sort_perm|]. apply NoDup_Permutation; [exact NDl|apply canon_nodup, sending_nodup|]. intros [z [k v]]. rewrite L, canon_In. rewrite <- (dget_iff o k v W).
    split; [intros [O I]; repeat split; auto; now apply order_known with z|tauto].
  - now apply sort_sorted.
  - apply canon_sorted; [apply sending_nodup|]. intros a x b y c E. rewrite E. apply pos_split. rewrite <- E. apply sending_nodup.
  - intros [z1 [k1 v1]] [z2 [k2 v2]] I1 I2 A B. apply (Permutation_in _ (Permutation_sym (sort_perm l))) in I1. apply (Permutation_in _ (Permutation_sym (sort_perm l))) in I2.
    apply L in I1 as [O1 I1]. apply L in I2 as [O2 I2]. unfold le_item in A, B. cbn [fst snd] in A, B.
    assert (k1 = k2) as -> by (apply (pos_inj sending_order); [now apply order_known with z1|now apply order_known with z2|lia]).
    apply (dget_iff o _ _ W) in I1. apply (dget_iff o _ _ W) in I2. congruence.
Qed.

(** ** Reading fail2ban.conf *)
Lemma dget_update u : dwf u -> forall d k, dget k (update d u) = match dget k u with Some v => Some v | None => dget k d end.
Proof.
  unfold update. induction u as [|[a v] u IH]; intros W d k; [reflexivity|]. unfold dwf in W. cbn [dkeys map fst] in W. apply NoDup_cons_iff in W as [N W]. cbn [fold_left fst snd]. rewrite (IH W), dget_dset. cbn [dget].
  destruct (eqb_spec k a) as [->|]; [|reflexivity]. assert (dget a u = None) as -> by now apply dget_None. reflexivity.
Qed.
Lemma dwf_update u : forall d, dwf d -> dwf (update d u).
Proof. unfold update. induction u as [|[a v] u IH]; intros d W; [exact W|]. cbn [fold_left]. apply IH. now apply dwf_dset. Qed.
Lemma dget_map {V U} (f : V -> U) (d : dict text V) k : dget k (map (fun kv => (fst kv, f (snd kv))) d) = match dget k d with Some v => Some (f v) | None => None end.
Proof. induction d as [|[a v] d IH]; [reflexivity|]. cbn [map fst snd dget]. destruct (eqb k a); [reflexivity|exact IH]. Qed.
Lemma main_says C M o : dwf (cf_opts C) -> main_get (cf_env C) M (cf_opts C) = Some o -> dwf o /\ forall k, In k sending_order -> dget k o = server_says C M k.
Proof.
  intros WC. unfold main_get.
  assert (ND : NoDup (Stream_Model.names main_options)) by (apply Stream_Props.nodupb_ok; vm_compute; reflexivity).
  pose proof (Stream_Props.C74_options (cf_env C) (m_get M) main_options [] false true ND) as H1.
  destruct (Stream_Model.get_options _ (m_get M) main_options [] false true []) as [o1|]; [|discriminate]. destruct H1 as (W1 & V1 & N1 & _).
  set (o2 := update _ (cf_opts C)).
  assert (W2 : dwf o2). { apply dwf_update. unfold dwf, dkeys in *. rewrite map_map. exact W1. }
  assert (V2 : forall k, dget k o2 = match dget k (cf_opts C) with Some v => Some v | None => match dget k o1 with Some v => Some (GV v) | None => None end end).
  { intros k. unfold o2. rewrite dget_update by exact WC. destruct (dget k (cf_opts C)); [reflexivity|]. apply (dget_map GV). }
  assert (V3 : forall k, In k sending_order -> k <> tx "thread" -> dget k o2 = server_says C M k).
  { intros k I N. rewrite V2. unfold server_says. apply eqb_neq in N as N'. rewrite N'. destruct (dget k (cf_opts C)); [reflexivity|].
    destruct I as [I|I]; [congruence|]. apply in_map_iff in I as ([k' [t d]] & <- & I). cbn [fst].
    assert (dget k' server_options = Some (t, d)) as -> by (apply In_dget; [apply Stream_Props.nodupb_ok; vm_compute; reflexivity|exact I]).
    rewrite (V1 t k' d); [reflexivity|]. unfold server_options in I. repeat (destruct I as [[= <- <- <-]|I]; [cbn; tauto|]). contradiction. }
  assert (V4 : dget (tx "thread") o2 = dget (tx "thread") (cf_opts C)).
  { rewrite V2. destruct (dget (tx "thread") (cf_opts C)); [reflexivity|]. rewrite N1; [reflexivity|]. apply inb_false. vm_compute. reflexivity. }
  assert (V5 : forall k, In k sending_order -> thread_says (cf_env C) M = None -> dget k o2 = server_says C M k).
  { intros k I TS. destruct (eqb_spec k (tx "thread")) as [->|N]; [|now apply V3]. rewrite V4. unfold server_says. rewrite eqb_refl, TS. reflexivity. }
  destruct (m_level M _); [|discriminate].
  unfold thread_says in V5. destruct (m_thread M) as [g|] eqn:Mt.
  - assert (ND' : NoDup (Stream_Model.names thread_options)) by (repeat constructor; intros []).
    pose proof (Stream_Props.C74_options (cf_env C) g thread_options [] false true ND') as H2.
    destruct (Stream_Model.get_options _ g thread_options [] false true []) as [th|] eqn:GT; [|discriminate]. destruct H2 as (W3 & U1 & U2 & _).
    specialize (U1 Stream_Model.TInt (tx "stacksize") Stream_Model.VNone ltac:(now left)). cbn [dmem dget] in U1.
    assert (Th : th = match Stream_Spec.option_value (cf_env C) true (g (tx "stacksize")) Stream_Model.TInt Stream_Model.VNone with Some v => [(tx "stacksize", v)] | None => [] end).
    { destruct th as [|[a v] th].
      - cbn [dget] in U1. now rewrite <- U1.
      - assert (a = tx "stacksize") as ->.
        { destruct (eqb_spec a (tx "stacksize")) as [|N]; [assumption|]. specialize (U2 a). cbn [dget] in U2. rewrite eqb_refl in U2. discriminate U2. intros [E|[]]. exact (N (eq_sym E)). }
        cbn [dget] in U1. rewrite eqb_refl in U1. rewrite <- U1. f_equal. destruct th as [|[b u] th]; [reflexivity|]. exfalso.
        unfold dwf in W3. cbn [dkeys map fst] in W3. apply NoDup_cons_iff in W3 as [N3 _]. destruct (eqb_spec b (tx "stacksize")) as [->|N]; [apply N3; now left|].
        specialize (U2 b). cbn [dget] in U2. apply eqb_neq in N as N'. rewrite N', eqb_refl in U2. discriminate U2. intros [E|[]]. exact (N (eq_sym E)). }
    destruct (Stream_Spec.option_value _ true (g (tx "stacksize")) _ _) as [v|] eqn:OV.
    + rewrite Th. intros [= <-]. split; [now apply dwf_dset|]. intros k I. destruct (eqb_spec k (tx "thread")) as [->|N]; [|rewrite dget_dset_other by exact N; now apply V3].
      rewrite dget_dset_same. unfold server_says, thread_says. rewrite Mt, OV, eqb_refl. reflexivity.
    + rewrite Th. intros [= <-]. split; [exact W2|]. intros k I. now apply V5.
  - intros [= <-]. split; [exact W2|]. intros k I. now apply V5.
Qed.
Lemma main_stream C M o : dwf (cf_opts C) -> main_get (cf_env C) M (cf_opts C) = Some o -> main_convert o = server_settings_of C M.
Proof.
  intros WC H. destruct (main_says C M o WC H) as [W V]. rewrite convert_canon by exact W. unfold server_settings_of.
  assert (OK : forall k, In k sending_order -> exists z, order k = Some z).
  { intros k I. unfold sending_order, server_options in I. cbn [map fst] in I. repeat (destruct I as [<-|I]; [eexists; reflexivity|]). contradiction. }
  unfold canon. induction sending_order as [|k l IH]; [reflexivity|]. cbn [flat_map]. rewrite map_app. f_equal; [|apply IH; intros; [apply V|apply OK]; now right].
  destruct (OK k ltac:(now left)) as [z ->]. rewrite V by now left. destruct (server_says C M k); reflexivity.
Qed.
Lemma settings_known C M : Forall (fun kv => In (str (fst kv)) server_settings) (server_settings_of C M).
Proof.
  apply Forall_forall. intros [k v] I. apply in_flat_map in I as (k' & I & H). destruct (server_says C M k'); [|contradiction]. destruct H as [[= -> _]|[]]. cbn [fst].
  unfold sending_order, server_options in I. cbn [map fst] in I. apply inb_In. repeat (destruct I as [<-|I]; [reflexivity|]). contradiction.
Qed.
