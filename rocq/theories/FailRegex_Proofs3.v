(** Proofs about named groups (see FailRegex_Props.v). *)
From Coq Require Import Sorted Permutation ZifyBool ZifyNat.
From Verif Require Import Base Text Backtrack Tags_Model FailRegex_Model FailRegex_Spec FailRegex_Proofs FailRegex_Proofs2.
Local Open Scope list_scope.
Local Open Scope Z_scope.

(** ** Names of parts *)
Lemma digit_iff c : is_digit c = true <-> 48 <= char_code c <= 57.
Proof. unfold is_digit. rewrite andb_true_iff, !Z.leb_le. reflexivity. Qed.
Lemma number_forallb d : number d <-> d <> [] /\ forallb is_digit d = true.
Proof. unfold number. rewrite forallb_forall, Forall_forall. split; intros [H1 H2]; (split; [exact H1|]); intros c I; apply digit_iff; auto. Qed.
Lemma number_end_iff r : number_end r = true <-> r = [] \/ exists d, r = "_"%char :: d /\ number d.
Proof.
  destruct r as [|c d]; cbn [number_end]; [split; auto|]. rewrite !andb_true_iff, eqb_eq, negb_true_iff, eqb_neq. split.
  - intros [[-> N] F]. right. exists d. split; [reflexivity|]. now apply number_forallb.
  - intros [E|(d' & E & H)]; [discriminate|]. injection E as -> <-. apply number_forallb in H as [N F]. auto.
Qed.
Lemma number_no_underscore d : number d -> ~ In "_"%char d.
Proof. intros [_ F] I. rewrite Forall_forall in F. specialize (F _ I). vm_compute in F. destruct F as [_ F]. now apply F. Qed.
Lemma lazy_spec r : exists t, r = lazy_name r ++ t /\ number_end t = true /\ forall a b, r = a ++ b -> number_end b = true -> (length (lazy_name r) <= length a)%nat.
Proof.
  induction r as [|c r (t & E & N & M)]; cbn [lazy_name].
  - exists []. cbn. split; [reflexivity|]. split; [reflexivity|]. intros; lia.
  - destruct (number_end (c :: r)) eqn:Ne.
    + exists (c :: r). split; [reflexivity|]. split; [exact Ne|]. intros; cbn; lia.
    + exists t. cbn [app]. split; [now rewrite <- E|]. split; [exact N|]. intros [|d a] b E' H; cbn [app] in E'; [subst b; congruence|].
      injection E' as <- E'. cbn [length]. specialize (M a b E' H). lia.
Qed.
Lemma lazy_unique r m : lazy_name r = m <-> (exists d, r = m ++ "_"%char :: d /\ number d) \/ (r = m /\ ~ numbered r).
Proof.
  destruct (lazy_spec r) as (t & E & N & M). split.
  - intros <-. apply number_end_iff in N as [-> | (d & -> & Nd)].
    + right. split; [now rewrite app_nil_r in E|]. intros (a & d & E' & Nd).
      assert (L : (length (lazy_name r) <= length a)%nat) by (apply (M a ("_"%char :: d) E'); apply number_end_iff; right; eauto).
      apply (f_equal (@length _)) in E, E'. rewrite app_length in E, E'. cbn [length] in E, E'. lia.
    + left. exists d. auto.
  - intros [(d & E' & Nd)|[Er H]].
    + assert (L : (length (lazy_name r) <= length m)%nat) by (apply (M m ("_"%char :: d) E'); apply number_end_iff; right; eauto).
      rewrite E in E' at 1. assert (E2 := E'). apply app_eq_app in E2 as [l [[E1 E2] | [E1 E2]]].
      * apply (f_equal (@length _)) in E1 as L1. rewrite app_length in L1. destruct l; [now rewrite app_nil_r in E1|]. cbn [length] in L1. lia.
      * destruct l as [|x l]; [now rewrite app_nil_r in E1|]. exfalso. apply number_end_iff in N as [-> | (d' & -> & Nd')]; [discriminate|].
        cbn [app] in E2. injection E2 as <- E2. apply (number_no_underscore d' Nd'). rewrite E2. apply in_elt.
    + apply number_end_iff in N as [-> | (d & Et & Nd)]; [rewrite app_nil_r in E; congruence|]. destruct H. exists (lazy_name r), d. split; [congruence|exact Nd].
Qed.
Definition pre_of (alt : bool) : text := if alt then tx "alt_" else tx "tuple_".
Lemma compl_iff k alt m : compl_name k = Some (alt, m) <-> exists r, k = pre_of alt ++ r /\ lazy_name r = m.
Proof.
  unfold compl_name. destruct (drop_lit (tx "alt_") k) as [r|] eqn:E1.
  - apply drop_lit_inv in E1 as ->. split.
    + intros H. injection H as <- <-. exists r. auto.
    + intros (r' & E & <-). destruct alt; cbn [pre_of] in E; [apply app_inv_head in E as <-; reflexivity|discriminate E].
  - assert (NA : forall r, k <> tx "alt_" ++ r) by (intros r ->; rewrite drop_lit_app in E1; discriminate).
    destruct (drop_lit (tx "tuple_") k) as [r|] eqn:E2.
    + apply drop_lit_inv in E2 as ->. split.
      * intros H. injection H as <- <-. exists r. auto.
      * intros (r' & E & <-). destruct alt; cbn [pre_of] in E; [destruct (NA r'); exact E|]. apply app_inv_head in E as <-. reflexivity.
    + split; [discriminate|]. intros (r & -> & _). exfalso. destruct alt; cbn [pre_of] in *; [now destruct (NA r)|]. rewrite drop_lit_app in E2. discriminate.
Qed.
Lemma group_name_nil m : group_name m = [] <-> m = [].
Proof.
  unfold group_name. split; [|intros ->; reflexivity]. destruct (eqb (map small m) (tx "id")); [discriminate|]. destruct (eqb (map small m) (tx "port")); [discriminate|].
  destruct m; [reflexivity|discriminate].
Qed.
Lemma part_compl alt k n : n <> [] -> (part_of (pre_of alt) k n <-> exists m, compl_name k = Some (alt, m) /\ group_name m = n).
Proof.
  intros Nn. unfold part_of. split.
  - intros (m & G & Nm & H). exists m. split; [|exact G]. apply compl_iff. destruct H as [(d & -> & Nd)|[-> Nn']].
    + exists (m ++ "_"%char :: d). split; [reflexivity|]. apply lazy_unique. left. eauto.
    + exists m. split; [reflexivity|]. apply lazy_unique. right. auto.
  - intros (m & C & G). apply compl_iff in C as (r & -> & L). exists m. split; [exact G|]. split; [intros ->; now apply Nn|].
    apply lazy_unique in L as [(d & -> & Nd)|[-> Nn']]; [left; eauto|right; auto].
Qed.

(** ** Order *)
Lemma ltb_before a : forall b, text_ltb a b = true <-> before a b.
Proof.
  induction a as [|x a IH]; intros [|y b]; cbn [text_ltb].
  - split; [discriminate|intros H; inversion H].
  - split; [constructor|reflexivity].
  - split; [discriminate|intros H; inversion H].
  - rewrite orb_true_iff, andb_true_iff, Z.ltb_lt, eqb_eq, IH. split.
    + intros [H|[-> H]]; [now constructor|now constructor 3].
    + intros H. inversion H; subst; auto.
Qed.
Lemma code_inj a b : char_code a = char_code b -> a = b.
Proof.
  unfold char_code. intros H. apply N2Z.inj in H. rewrite <- (ascii_N_embedding a), <- (ascii_N_embedding b). now rewrite H.
Qed.
Lemma before_trichotomy a : forall b, before a b \/ a = b \/ before b a.
Proof.
  induction a as [|x a IH]; intros [|y b]; [auto|left; constructor|right; right; constructor|].
  destruct (Z.lt_trichotomy (char_code x) (char_code y)) as [H|[H|H]]; [left; now constructor| |right; right; now constructor].
  apply code_inj in H as ->. destruct (IH b) as [H|[-> |H]]; [left; now constructor 3|auto|right; right; now constructor 3].
Qed.
Lemma before_trans a b c : before a b -> before b c -> before a c.
Proof.
  intros H. revert c. induction H as [x b|x y a b L|x a b H IH]; intros c H'; inversion H' as [|? z ? c' L'|? ? c' H'']; subst.
  - constructor.
  - constructor.
  - constructor. lia.
  - now constructor.
  - now constructor.
  - constructor 3. auto.
Qed.
Lemma before_irrefl a : ~ before a a.
Proof. induction a as [|x a IH]; intros H; inversion H; subst; [lia|contradiction]. Qed.
Definition pbefore (p q : text * text) : Prop := before (fst p) (fst q).
Lemma insert_perm p l : Permutation (insert p l) (p :: l).
Proof.
  induction l as [|q l IH]; cbn [insert]; [reflexivity|]. destruct (text_ltb (fst q) (fst p)); [|reflexivity].
  rewrite IH. constructor.
Qed.
Lemma sort_perm l : Permutation (sort l) l.
Proof. induction l as [|p l IH]; cbn [sort fold_right]; [constructor|]. rewrite insert_perm. now constructor. Qed.
Lemma insert_sorted p l : StronglySorted pbefore l -> ~ In (fst p) (map fst l) -> StronglySorted pbefore (insert p l).
Proof.
  induction 1 as [|q l Hs IH F]; intros N; cbn [insert]; [repeat constructor|]. cbn [map In] in N.
  destruct (text_ltb (fst q) (fst p)) eqn:E.
  - constructor; [apply IH; tauto|]. apply ltb_before in E. eapply Permutation_Forall; [symmetry; apply insert_perm|]. constructor; assumption.
  - assert (B : pbefore p q).
    { destruct (before_trichotomy (fst p) (fst q)) as [H|[H|H]]; [exact H|destruct N; left; congruence|apply ltb_before in H; congruence]. }
    constructor; [constructor; assumption|]. constructor; [exact B|]. eapply Forall_impl; [|exact F]. intros z. apply before_trans. exact B.
Qed.
Lemma sort_sorted l : NoDup (map fst l) -> StronglySorted pbefore (sort l).
Proof.
  induction l as [|p l IH]; cbn [sort fold_right map]; intros N; [constructor|]. inversion N as [|? ? N1 N2]; subst. apply insert_sorted; [now apply IH|].
  intros I. apply N1. revert I. apply Permutation_in. apply Permutation_map, sort_perm.
Qed.
Lemma parts_In alt names k n : n <> [] -> In (k, n) (parts alt names) <-> In k names /\ part_of (pre_of alt) k n.
Proof.
  intros Nn. unfold parts. split.
  - intros I. apply (Permutation_in _ (sort_perm _)) in I. apply in_flat_map in I as (k' & I & H). apply filter_In in I as [I _].
    destruct (compl_name k') as [[a m]|] eqn:C; [|destruct H]. destruct (Bool.eqb a alt) eqn:Ea; [|destruct H]. apply Bool.eqb_prop in Ea as ->.
    destruct H as [H|[]]. injection H as <- Hn. split; [exact I|]. apply part_compl; [exact Nn|]. exists m. now rewrite <- group_name_eq.
  - intros [I P]. apply (Permutation_in _ (Permutation_sym (sort_perm _))). apply in_flat_map. exists k. split.
    + apply filter_In. split; [exact I|]. destruct P as (m & _ & Nm & H).
      assert (L : (4 < length k)%nat); [|now apply Nat.ltb_lt].
      destruct H as [(d & -> & _)|[-> _]]; rewrite !app_length; destruct m; try congruence; destruct alt; cbn; lia.
    + apply part_compl in P as (m & C & G); [|exact Nn]. rewrite C, Bool.eqb_reflx. left. now rewrite group_name_eq, G.
Qed.
Lemma flat_map_fst alt l : NoDup l -> NoDup (map fst (flat_map (fun k => match compl_name k with
   | Some (a, n) => if Bool.eqb a alt then [(k, map_tag2opt n)] else [] | None => [] end) l)).
Proof.
  induction 1 as [|k l N Hl IH]; cbn [flat_map]; [constructor|]. rewrite map_app.
  destruct (compl_name k) as [[a m]|]; [|exact IH]. destruct (Bool.eqb a alt); [|exact IH]. cbn [map app fst]. constructor; [|exact IH].
  intros I. apply in_map_iff in I as ([k' n'] & E & I). cbn [fst] in E. subst k'. apply N. apply in_flat_map in I as (k' & I & H).
  destruct (compl_name k') as [[a' m']|]; [|destruct H]. destruct (Bool.eqb a' alt); [|destruct H]. destruct H as [H|[]]. congruence.
Qed.
Lemma parts_sorted alt names : NoDup names -> StronglySorted pbefore (parts alt names).
Proof. intros N. apply sort_sorted, flat_map_fst, NoDup_filter, N. Qed.
Lemma parts_source alt names k n : In (k, n) (parts alt names) -> exists r, k = pre_of alt ++ r.
Proof.
  intros I. apply (Permutation_in _ (sort_perm _)) in I. apply in_flat_map in I as (k' & I & H).
  destruct (compl_name k') as [[a m]|] eqn:C; [|destruct H]. destruct (Bool.eqb a alt) eqn:Ea; [|destruct H]. apply Bool.eqb_prop in Ea as ->.
  destruct H as [H|[]]. injection H as <- Hn. apply compl_iff in C as (r & E & _). eauto.
Qed.

(** ** Merging *)
Fixpoint pick (v : gval) (l : list gval) : gval :=
  match l with
  | [] => v
  | w :: l => if truth v then v else if truth w then w else pick v l
  end.
Definition sources (n : text) (l : list (text * text)) : list text := map fst (filter (fun p => eqb (snd p) n) l).
Lemma pick_truth v l : truth v = true -> pick v l = v.
Proof. intros H. destruct l; cbn [pick]; [reflexivity|]. now rewrite H. Qed.
Lemma fold_alt l : forall g n, (forall k x k' y, In (k, x) l -> In (k', y) l -> k <> y) ->
  gget (fold_left merge_alt l g) n = pick (gget g n) (map (gget g) (sources n l)).
Proof.
  induction l as [|[k x] l IH]; intros g n H; [reflexivity|]. cbn [fold_left].
  rewrite IH by (intros ? ? ? ? I1 I2; eapply H; right; eassumption).
  assert (Keep : forall k' y, In (k', y) ((k, x) :: l) -> gget (merge_alt g (k, x)) k' = gget g k').
  { intros k' y I. cbn [merge_alt]. destruct (truth (gget g k) && negb (truth (gget g x))); [|reflexivity]. unfold gget at 1.
    rewrite dget_dset_other; [reflexivity|]. apply (H k' y k x); [exact I|now left]. }
  assert (Same : map (gget (merge_alt g (k, x))) (sources n l) = map (gget g) (sources n l)).
  { apply map_ext_in. intros k' I. unfold sources in I. apply in_map_iff in I as ([k2 y] & E & I). cbn [fst] in E. subst k2. apply filter_In in I as [I _].
    apply (Keep k' y). now right. }
  rewrite Same. unfold sources. cbn [filter snd]. cbn [merge_alt]. destruct (eqb_spec x n) as [->|Nx].
  - cbn [map fst pick]. destruct (truth (gget g n)) eqn:Tn; cbn [negb].
    + rewrite andb_false_r. now rewrite pick_truth.
    + rewrite andb_true_r. destruct (truth (gget g k)) eqn:Tk; [|reflexivity]. 
      unfold gget at 1. rewrite dget_dset_same. now rewrite pick_truth.
  - destruct (truth (gget g k) && negb (truth (gget g x))); [|reflexivity]. unfold gget at 1. rewrite dget_dset_other by congruence. reflexivity.
Qed.
Definition tuple_of (v : gval) (l : list gval) : gval :=
  match l with
  | [] => v
  | _ => match v with GTuple t => GTuple (t ++ l) | _ => GTuple (v :: l) end
  end.
Lemma fold_tuple l : forall g n, (forall k x k' y, In (k, x) l -> In (k', y) l -> k <> y) ->
  gget (fold_left merge_tuple l g) n = tuple_of (gget g n) (map (gget g) (sources n l)).
Proof.
  induction l as [|[k x] l IH]; intros g n H; [reflexivity|]. cbn [fold_left].
  rewrite IH by (intros ? ? ? ? I1 I2; eapply H; right; eassumption).
  assert (Keep : forall k' y, In (k', y) ((k, x) :: l) -> gget (merge_tuple g (k, x)) k' = gget g k').
  { intros k' y I. cbn [merge_tuple]. unfold gget at 1. rewrite dget_dset_other; [reflexivity|]. apply (H k' y k x); [exact I|now left]. }
  assert (Same : map (gget (merge_tuple g (k, x))) (sources n l) = map (gget g) (sources n l)).
  { apply map_ext_in. intros k' I. unfold sources in I. apply in_map_iff in I as ([k2 y] & E & I). cbn [fst] in E. subst k2. apply filter_In in I as [I _].
    apply (Keep k' y). now right. }
  rewrite Same. unfold sources. cbn [filter snd]. cbn [merge_tuple]. destruct (eqb_spec x n) as [->|Nx].
  - cbn [map fst]. unfold gget at 1. rewrite dget_dset_same. set (L := map (gget g) (map fst (filter _ l))).
    destruct (gget g n) as [|t|t]; destruct L as [|z L]; cbn [tuple_of app]; try reflexivity. now rewrite <- app_assoc.
  - unfold gget at 1. rewrite dget_dset_other by congruence. reflexivity.
Qed.

(** ** Against the specification *)
Definition gof (v : option text) : gval := match v with Some t => GText t | None => GNone end.
Lemma gget_map m k : gget (map (fun kv => (fst kv, match snd kv with Some t => GText t | None => GNone end)) m) k = gof (matched m k).
Proof.
  unfold gget, matched. induction m as [|[x v] m IH]; [reflexivity|]. cbn [map dget fst snd]. destruct (eqb k x); [now destruct v|exact IH].
Qed.
Lemma truth_full v : truth (gof v) = true <-> full v.
Proof.
  unfold full. destruct v as [[|c r]|]; cbn; split; try discriminate; try (intros (? & ? & H); discriminate); eauto.
Qed.
Lemma truth_not_full v : truth (gof v) = false <-> ~ full v.
Proof. rewrite <- truth_full. destruct (truth (gof v)); split; congruence. Qed.
Lemma sources_In n l k : In k (sources n l) <-> In (k, n) l.
Proof.
  unfold sources. rewrite in_map_iff. split.
  - intros ([k' x] & E & I). cbn [fst] in E. subst k'. apply filter_In in I as [I E]. cbn [snd] in E. apply eqb_true in E as ->. exact I.
  - intros I. exists (k, n). split; [reflexivity|]. apply filter_In. split; [exact I|apply eqb_refl].
Qed.
Lemma sources_sorted n l : StronglySorted pbefore l -> StronglySorted before (sources n l).
Proof.
  induction 1 as [|p l Hs IH F]; unfold sources; cbn [filter]; [constructor|]. destruct (eqb (snd p) n); [|exact IH]. cbn [map]. constructor; [exact IH|].
  rewrite Forall_forall in *. intros k I. apply in_map_iff in I as (q & <- & I). apply filter_In in I as [I _]. exact (F q I).
Qed.
Lemma pick_first m v l : StronglySorted before l -> truth v = false ->
  (exists k, In k l /\ full (matched m k) /\ pick v (map (fun k => gof (matched m k)) l) = gof (matched m k) /\ forall k', In k' l -> full (matched m k') -> k' = k \/ before k k')
  \/ (pick v (map (fun k => gof (matched m k)) l) = v /\ forall k, In k l -> ~ full (matched m k)).
Proof.
  induction 1 as [|k l Hs IH F]; intros Tv; cbn [map pick]; [right; split; [reflexivity|intros k []]|]. rewrite Tv.
  destruct (truth (gof (matched m k))) eqn:Tk.
  - left. exists k. split; [now left|]. split; [now apply truth_full|]. split; [reflexivity|]. intros k' [-> |I] _; [auto|].
    right. rewrite Forall_forall in F. exact (F k' I).
  - apply truth_not_full in Tk. destruct (IH Tv) as [(k0 & I & Fk & E & M)|[E M]].
    + left. exists k0. split; [now right|]. split; [exact Fk|]. split; [exact E|]. intros k' [<- |I'] Fk'; [contradiction|auto].
    + right. split; [exact E|]. intros k' [<- |I']; auto.
Qed.

Lemma matched_In m k : full (matched m k) -> In k (dkeys m).
Proof.
  unfold matched. intros (c & r & E). destruct (dget k m) as [v|] eqn:D; [|discriminate]. eapply dget_key, D.
Qed.
Section Groups.
  Context (r : regex) (m : dict text (option text)).
  Hypothesis Hm : dwf m.
  Hypothesis Ha : rx_alts r = parts true (dkeys m).
  Hypothesis Ht : rx_tuples r = parts false (dkeys m).
  (** the names of parts do not begin with a prefix again *)
  Hypothesis Hs : forall k n, In k (dkeys m) -> alternative k n \/ component k n -> ~ has_prefix (tx "alt_") n /\ ~ has_prefix (tx "tuple_") n.

  Lemma target_not_source alt alt' k n k' n' : In (k, n) (parts alt (dkeys m)) -> In (k', n') (parts alt' (dkeys m)) -> k <> n'.
  Proof.
    intros I I' ->. apply parts_source in I as (x & E).
    destruct n' as [|c n']; [destruct alt; discriminate|]. apply parts_In in I' as [I' P]; [|discriminate].
    destruct (Hs k' (c :: n') I') as [H1 H2]; [destruct alt'; auto|]. destruct alt; [apply H1|apply H2]; exists x; exact E.
  Qed.
  Definition g0 : gdict := map (fun kv => (fst kv, match snd kv with Some t => GText t | None => GNone end)) m.
  Lemma after_alts n : gget (fold_left merge_alt (rx_alts r) g0) n = pick (gof (matched m n)) (map (fun k => gof (matched m k)) (sources n (rx_alts r))).
  Proof.
    rewrite fold_alt; [|rewrite Ha; intros k x k' y I1 I2; eapply target_not_source; eassumption].
    unfold g0. rewrite gget_map. f_equal. apply map_ext. intros k. apply gget_map.
  Qed.
  Lemma after_alts_single n : n <> [] -> exists v, single m n v /\ gget (fold_left merge_alt (rx_alts r) g0) n = gof v.
  Proof.
    intros Nn. rewrite after_alts. destruct (truth (gof (matched m n))) eqn:T.
    - exists (matched m n). rewrite pick_truth by exact T. apply truth_full in T. split; [left; auto|reflexivity].
    - assert (Sl : StronglySorted before (sources n (rx_alts r))) by (apply sources_sorted; rewrite Ha; now apply parts_sorted).
      assert (Alt : forall k, In k (sources n (rx_alts r)) <-> In k (dkeys m) /\ alternative k n).
      { intros k. rewrite sources_In, Ha. apply (parts_In true). exact Nn. }
      destruct (pick_first m _ _ Sl T) as [(k & I & Fk & E & M)|[E M]].
      + exists (matched m k). split; [|exact E]. right. left. apply truth_not_full in T. split; [exact T|]. exists k. apply Alt in I as [I A].
        split; [exact A|]. split; [exact Fk|]. split; [reflexivity|]. intros k' A' F'. apply M; [|exact F']. apply Alt. split; [now apply matched_In|exact A'].
      + exists (matched m n). split; [|exact E]. right. right. apply truth_not_full in T. split; [exact T|]. split; [reflexivity|].
        intros k A F. apply (M k); [|exact F]. apply Alt. split; [now apply matched_In|exact A].
  Qed.
  Lemma alts_keep_components k n : In (k, n) (rx_tuples r) -> gget (fold_left merge_alt (rx_alts r) g0) k = gof (matched m k).
  Proof.
    intros I. rewrite after_alts. destruct (sources k (rx_alts r)) as [|k' l] eqn:E; [reflexivity|]. exfalso.
    assert (I' : In k' (sources k (rx_alts r))) by (rewrite E; now left). apply sources_In in I'. rewrite Ha in I'. rewrite Ht in I.
    exact (target_not_source false true k n k' k I I' eq_refl).
  Qed.
  Lemma groups_tuple n : gget (get_groups r m) n = tuple_of (gget (fold_left merge_alt (rx_alts r) g0) n) (map (fun k => gof (matched m k)) (sources n (rx_tuples r))).
  Proof.
    unfold get_groups. rewrite fold_tuple; [|rewrite Ht; intros k x k' y I1 I2; eapply target_not_source; eassumption].
    fold g0. f_equal. apply map_ext_in. intros k I. apply sources_In in I. eapply alts_keep_components, I.
  Qed.
  Lemma components_In n k : n <> [] -> In k (sources n (rx_tuples r)) <-> In k (dkeys m) /\ component k n.
  Proof. intros Nn. rewrite sources_In, Ht. apply (parts_In false). exact Nn. Qed.
  Lemma groups_single n : n <> [] -> (forall k, In k (dkeys m) -> ~ component k n) -> exists v, single m n v /\ gget (get_groups r m) n = gof v.
  Proof.
    intros Nn C. destruct (after_alts_single n Nn) as (v & S1 & S2). exists v. split; [exact S1|]. rewrite groups_tuple.
    destruct (sources n (rx_tuples r)) as [|k l] eqn:E; [cbn; exact S2|]. exfalso. assert (I : In k (sources n (rx_tuples r))) by (rewrite E; now left).
    apply components_In in I as [I1 I2]; [|exact Nn]. exact (C k I1 I2).
  Qed.
  Lemma sorted_unique (l l' : list text) : StronglySorted before l -> StronglySorted before l' -> (forall k, In k l <-> In k l') -> l = l'.
  Proof.
    intros H. revert l'. induction H as [|x l Hl IH F]; intros l' H' E.
    - destruct l' as [|y l']; [reflexivity|]. destruct (proj2 (E y)). now left.
    - inversion H' as [|y l2 Hl2 F2 Eq]; subst; [destruct (proj1 (E x)); now left|].
      rewrite Forall_forall in F, F2.
      assert (x = y).
      { destruct (proj1 (E x)) as [->|I]; [now left|reflexivity|]. destruct (proj2 (E y)) as [->|I']; [now left|reflexivity|].
        destruct (before_irrefl x). eapply before_trans; [apply F; exact I'|apply F2; exact I]. }
      subst y. f_equal. apply IH; [exact Hl2|]. intros k. split; intros I.
      + destruct (proj1 (E k)) as [->|I']; [now right|destruct (before_irrefl k); now apply F|exact I'].
      + destruct (proj2 (E k)) as [->|I']; [now right|destruct (before_irrefl k); now apply F2|exact I'].
  Qed.
  Lemma groups_components n l : n <> [] -> l <> [] -> StronglySorted before l -> (forall k, In k l <-> In k (dkeys m) /\ component k n) ->
    exists v, single m n v /\ gget (get_groups r m) n = GTuple (gof v :: map (fun k => gof (matched m k)) l).
  Proof.
    intros Nn Nl Sl I. destruct (after_alts_single n Nn) as (v & S1 & S2). exists v. split; [exact S1|]. rewrite groups_tuple, S2.
    assert (El : sources n (rx_tuples r) = l).
    { apply sorted_unique; [apply sources_sorted; rewrite Ht; now apply parts_sorted|exact Sl|]. intros k. rewrite I. now apply components_In. }
    rewrite El. destruct l as [|k l]; [congruence|]. cbn [map tuple_of]. now destruct v.
  Qed.
End Groups.
