(** Lemmas about the failure manager model. *)
From Verif Require Import Base Ticket_Model FailManager_Model FailManager_Spec.
From Coq Require Import Permutation ZifyBool ZifyNat.

(** ** Arithmetic of the decay *)
Lemma round_half_even_bounds n d : 0 < d ->
  n / d <= round_half_even n d <= n / d + 1.
Proof.
  intros H. unfold round_half_even.
  destruct (Z.ltb_spec (2 * (n mod d)) d); [lia|].
  destruct (Z.ltb_spec d (2 * (n mod d))); [lia|].
  destruct (Z.even (n / d)); lia.
Qed.

Lemma round_half_even_nonneg n d : 0 < d -> 0 <= n -> 0 <= round_half_even n d.
Proof.
  intros Hd Hn. pose proof (round_half_even_bounds n d Hd).
  pose proof (Z.div_pos n d Hn Hd). lia.
Qed.

Lemma round_half_even_le r m d : 0 <= r -> 0 <= m -> m < d -> round_half_even (r * m) d <= r.
Proof.
  intros Hr Hm Hd. assert (0 < d) by lia.
  pose proof (round_half_even_bounds (r * m) d ltac:(lia)) as [_ HB].
  destruct (Z.eq_dec r 0) as [->|Nr].
  - rewrite Z.mul_0_l in *. unfold round_half_even.
    rewrite Z.div_0_l, Z.mod_0_l by lia.
    destruct (Z.ltb_spec (2 * 0) d); lia.
  - assert (r * m < r * d) by nia.
    assert (r * m / d < r) by (apply Z.div_lt_upper_bound; lia). lia.
Qed.

(** ** Record bookkeeping *)
Lemma adjust_id t m tk : t_id (adjust_time t m tk) = t_id tk.
Proof. unfold adjust_time. destruct (t >? t_time tk); [|reflexivity]. now destruct (_ <? _). Qed.
Lemma adjust_matches t m tk : t_matches (adjust_time t m tk) = t_matches tk.
Proof. unfold adjust_time. destruct (t >? t_time tk); [|reflexivity]. now destruct (_ <? _). Qed.
Lemma adjust_t_time t m tk : t_time (adjust_time t m tk) = Z.max (t_time tk) t.
Proof.
  unfold adjust_time. destruct (Z.gtb_spec t (t_time tk)).
  - destruct (_ <? _); cbn; lia.
  - lia.
Qed.
Lemma adjust_retry_bounds t m tk : 0 <= m -> 0 <= t_retry tk ->
  0 <= t_retry (adjust_time t m tk) <= t_retry tk.
Proof.
  intros Hm Hr. unfold adjust_time. destruct (t >? t_time tk); [|lia].
  destruct (Z.ltb_spec (t_first tk) (t - m)); cbn; [|lia].
  split; [apply round_half_even_nonneg; nia | apply round_half_even_le; lia].
Qed.

Lemma set_retry_id v t : t_id (set_retry v t) = t_id t.
Proof. unfold set_retry. cbn. destruct (t_failures t =? 0), (v =? 0); reflexivity. Qed.
Lemma set_retry_retry v t : t_retry (set_retry v t) = v.
Proof. unfold set_retry. cbn. destruct (t_failures t =? 0), (v =? 0); reflexivity. Qed.
Lemma set_retry_time v t : t_time (set_retry v t) = t_time t.
Proof. unfold set_retry. cbn. destruct (t_failures t =? 0), (v =? 0); reflexivity. Qed.
Lemma set_retry_first v t : t_first (set_retry v t) = t_first t.
Proof. unfold set_retry. cbn. destruct (t_failures t =? 0), (v =? 0); reflexivity. Qed.
Lemma set_retry_matches v t : v <> 0 -> t_matches (set_retry v t) = t_matches t.
Proof.
  intros H. unfold set_retry. cbn. destruct (Z.eqb_spec v 0); [contradiction|].
  now destruct (t_failures t =? 0).
Qed.

Lemma first_entry_id tk c : t_id (first_entry tk c) = t_id tk.
Proof. unfold first_entry. destruct (_ >? _); [apply set_retry_id | reflexivity]. Qed.
Lemma first_entry_time tk c : t_time (first_entry tk c) = t_time tk.
Proof. unfold first_entry. destruct (_ >? _); [apply set_retry_time | reflexivity]. Qed.
Lemma first_entry_retry tk c :
  t_retry (first_entry tk c) = if c >? t_failures tk then c else t_retry tk.
Proof. unfold first_entry. destruct (_ >? _); [apply set_retry_retry | reflexivity]. Qed.
Lemma first_entry_matches tk c : 0 <= t_failures tk ->
  t_matches (first_entry tk c) = t_matches tk.
Proof.
  intros H. unfold first_entry. destruct (Z.gtb_spec c (t_failures tk)); [|reflexivity].
  apply set_retry_matches. lia.
Qed.

Lemma truncate_id m t : t_id (truncate m t) = t_id t.
Proof. unfold truncate, set_matches. destruct m; [reflexivity|]. destruct (Nat.ltb _ _); [|reflexivity]. now destruct (last_n _ _). Qed.
Lemma truncate_time m t : t_time (truncate m t) = t_time t.
Proof. unfold truncate, set_matches. destruct m; [reflexivity|]. destruct (Nat.ltb _ _); [|reflexivity]. now destruct (last_n _ _). Qed.
Lemma truncate_retry m t : t_retry (truncate m t) = t_retry t.
Proof. unfold truncate, set_matches. destruct m; [reflexivity|]. destruct (Nat.ltb _ _); [|reflexivity]. now destruct (last_n _ _). Qed.
Lemma truncate_first m t : t_first (truncate m t) = t_first t.
Proof. unfold truncate, set_matches. destruct m; [reflexivity|]. destruct (Nat.ltb _ _); [|reflexivity]. now destruct (last_n _ _). Qed.

Lemma inc_id m a c t : t_id (fst (inc m a c t)) = t_id t.
Proof. unfold inc. cbn. destruct m as [[|x m]|]; cbn; try reflexivity. now destruct (t_matches t). Qed.
Lemma inc_time m a c t : t_time (fst (inc m a c t)) = t_time t.
Proof. unfold inc. cbn. destruct m as [[|x m]|]; cbn; try reflexivity. now destruct (t_matches t). Qed.
Lemma inc_first m a c t : t_first (fst (inc m a c t)) = t_first t.
Proof. unfold inc. cbn. destruct m as [[|x m]|]; cbn; try reflexivity. now destruct (t_matches t). Qed.
Lemma inc_retry m a c t : t_retry (fst (inc m a c t)) = t_retry t + c.
Proof. unfold inc. cbn. destruct m as [[|x m]|]; cbn; try reflexivity. now destruct (t_matches t). Qed.

(** ** Characterisation of add_failure for a known ID *)
Definition incremented (fm : failmgr) (old tk : ticket) (count : Z) (new : ticket) : Prop :=
  t_id new = t_id old /\
  t_time new = Z.max (t_time old) (t_time tk) /\
  t_retry new = t_retry (adjust_time (t_time tk) (fm_time fm) old) + count /\
  t_first new = t_first (adjust_time (t_time tk) (fm_time fm) old).

Lemma add_known_incr fm tk same count r :
  add_known fm tk same count = Some r ->
  exists old, dget (t_id tk) (fm_list fm) = Some old /\ incremented fm old tk count (fst r).
Proof.
  unfold add_known. destruct (dget (t_id tk) (fm_list fm)) as [old|]; [|discriminate].
  intros E. exists old. split; [reflexivity|].
  set (M := if same then None else _) in E. set (A := if same then 1 else _) in E.
  set (ad := adjust_time _ _ _) in E.
  pose proof (inc_id M A count ad) as H1. pose proof (inc_time M A count ad) as H2.
  pose proof (inc_retry M A count ad) as H3. pose proof (inc_first M A count ad) as H4.
  destruct (inc M A count ad) as [f b] eqn:Ei. cbn [fst] in *.
  assert (H5 : t_id ad = t_id old) by apply adjust_id.
  assert (H6 : t_time ad = Z.max (t_time old) (t_time tk)) by apply adjust_t_time.
  unfold incremented.
  destruct b; injection E as <-; cbn [fst];
    rewrite ?truncate_id, ?truncate_time, ?truncate_retry, ?truncate_first; fold ad;
    repeat split; congruence.
Qed.

(** ** cleanup is a filter *)
Lemma fold_ddel_filter (l : dict string ticket) (f : string * ticket -> bool) :
  dwf l -> fold_left (fun d k => ddel k d) (map fst (filter f l)) l
           = filter (fun kv => negb (f kv)) l.
Proof.
  intros H.
  assert (G : forall (ks : list string) (d : dict string ticket), dwf d ->
            fold_left (fun d k => ddel k d) ks d
            = filter (fun kv => negb (inb (fst kv) ks)) d).
  { induction ks as [|k ks IH]; cbn; intros d Hd.
    - induction d as [|a d IHd]; cbn; [reflexivity|]. f_equal. apply IHd.
      unfold dwf in *; cbn in Hd. now inversion Hd.
    - rewrite IH by now apply dwf_ddel. rewrite ddel_filter by exact Hd.
      clear IH Hd. induction d as [|a d IHd]; cbn; [reflexivity|].
      rewrite (eqb_sym k (fst a)).
      destruct (eqb (fst a) k); cbn; [exact IHd|].
      fold (inb (fst a) ks).
      destruct (inb (fst a) ks); cbn; [exact IHd | f_equal; exact IHd]. }
  rewrite G by exact H.
  apply filter_ext_in. intros [k t] Hin. f_equal.
  destruct (f (k, t)) eqn:Ef.
  - apply inb_In. apply in_map_iff. exists (k, t). split; [reflexivity|].
    apply filter_In; auto.
  - apply inb_false. intros I. apply in_map_iff in I as ([k' t'] & Ek & I). cbn in Ek; subst k'.
    apply filter_In in I as [I Et].
    apply (In_dget _ _ _ H) in Hin. apply (In_dget _ _ _ H) in I. congruence.
Qed.

Lemma filter_all_length {A} (f : A -> bool) l :
  length (filter f l) = length l -> filter (fun x => negb (f x)) l = [].
Proof.
  induction l as [|a l IH]; cbn; [reflexivity|]. intros H.
  assert (Hl : (length (filter f l) <= length l)%nat).
  { clear. induction l as [|a l IH]; cbn; [lia|]. destruct (f a); cbn; lia. }
  destruct (f a); cbn in *; [apply IH; lia | lia].
Qed.

Lemma filter_none {A} (f : A -> bool) l : filter f l = [] -> filter (fun x => negb (f x)) l = l.
Proof.
  induction l as [|a l IH]; cbn; [reflexivity|].
  destruct (f a); cbn; [discriminate|]. intros H. now rewrite IH.
Qed.

Lemma cleanup_list fm t : dwf (fm_list fm) ->
  fm_list (cleanup fm t) = filter (fun kv => negb (t_time (snd kv) <=? t - fm_time fm)) (fm_list fm).
Proof.
  intros H. unfold cleanup.
  set (thr := t - fm_time fm). set (p := fun kv : string * ticket => t_time (snd kv) <=? thr).
  change (fun kv => negb (t_time (snd kv) <=? thr)) with (fun kv => negb (p kv)).
  destruct (Nat.eqb_spec (length (map fst (filter p (fm_list fm)))) (length (fm_list fm))) as [E|N].
  - rewrite map_length in E. rewrite (filter_all_length p _ E). cbn [fm_list with_list].
    rewrite !map_length. cbn [length].
    destruct (Nat.leb_spec (3 * length (filter p (fm_list fm))) (2 * 0)) as [L|L]; [|reflexivity].
    assert (Hz : filter p (fm_list fm) = []) by (apply length_zero_iff_nil; lia).
    rewrite Hz. reflexivity.
  - assert (Hf : filter (fun kv => t_time (snd kv) >? thr) (fm_list fm)
                 = filter (fun kv => negb (p kv)) (fm_list fm)).
    { apply filter_ext. intros kv. unfold p. lia. }
    destruct (map fst (filter p (fm_list fm))) as [|k ks] eqn:Ek.
    + apply map_eq_nil in Ek. symmetry. now apply filter_none.
    + cbn [fm_list with_list]. rewrite Hf, <- Ek, fold_ddel_filter by exact H.
      now destruct (Nat.leb _ _).
Qed.

Lemma cleanup_other fm t : fm_retry (cleanup fm t) = fm_retry fm /\ fm_time (cleanup fm t) = fm_time fm
  /\ fm_total (cleanup fm t) = fm_total fm /\ fm_maxm (cleanup fm t) = fm_maxm fm.
Proof.
  unfold cleanup. destruct (Nat.eqb _ _); [cbn; auto|].
  destruct (map fst _); cbn; auto.
Qed.

(** ** to_ban *)
Lemma first_bannable_find r l :
  first_bannable r l = find (fun kv => t_retry (snd kv) >=? r) l.
Proof.
  induction l as [|[k t] l IH]; cbn; [reflexivity|]. now destruct (t_retry t >=? r).
Qed.

Lemma first_bannable_some r l k t :
  first_bannable r l = Some (k, t) -> In (k, t) l /\ r <= t_retry t.
Proof.
  rewrite first_bannable_find. intros H. apply find_some in H as [H1 H2]. cbn in H2. split; [auto|lia].
Qed.

Lemma first_bannable_none r l :
  first_bannable r l = None -> forall k t, In (k, t) l -> t_retry t < r.
Proof.
  rewrite first_bannable_find. intros H k t I. apply (find_none _ _ H) in I. cbn in I. lia.
Qed.

(** ** Invariant of every reachable state *)
Definition wf_fm (fm : failmgr) : Prop :=
  dwf (fm_list fm) /\ (forall k t, dget k (fm_list fm) = Some t -> t_id t = k /\ 0 <= t_retry t)
  /\ 0 <= fm_time fm.

Lemma wf_dset fm k t : wf_fm fm -> t_id t = k -> 0 <= t_retry t ->
  dwf (dset k t (fm_list fm)) /\
  (forall k' t', dget k' (dset k t (fm_list fm)) = Some t' -> t_id t' = k' /\ 0 <= t_retry t').
Proof.
  intros (H1 & H2 & _) Hi Hr. split; [now apply dwf_dset|].
  intros k' t'. rewrite dget_dset. destruct (eqb_spec k' k) as [->|N].
  - intros E; injection E as <-. auto.
  - apply H2.
Qed.

Lemma to_ban_cases fm q fm' r : dwf (fm_list fm) -> to_ban fm q = (fm', r) ->
  (exists k t, r = Some t /\ dget k (fm_list fm) = Some t /\ fm_retry fm <= t_retry t
               /\ fm' = with_list (ddel k (fm_list fm)) fm
               /\ (forall i, q = Some i -> dmem i (fm_list fm) = true -> k = i))
  \/ (r = None /\ fm' = fm).
Proof.
  intros Hwf. unfold to_ban.
  set (c := match q with Some i => _ | None => _ end).
  destruct (first_bannable (fm_retry fm) c) as [[k t]|] eqn:E; intros X; injection X as <- <-.
  - left. exists k, t. apply first_bannable_some in E as [Hin Hr].
    assert (Hg : dget k (fm_list fm) = Some t /\
                 (forall i, q = Some i -> dmem i (fm_list fm) = true -> k = i)).
    { subst c. destruct q as [i|].
      - unfold dmem. destruct (dget i (fm_list fm)) as [ti|] eqn:Ei.
        + cbn in Hin. destruct Hin as [X|[]]. injection X as -> ->. split; [auto|]. congruence.
        + split; [now apply In_dget|]. intros i' X. injection X as ->. now rewrite Ei.
      - split; [now apply In_dget | discriminate]. }
    destruct Hg. auto 10.
  - right. auto.
Qed.

Lemma add_failure_cases fm tk same count obs :
  (exists old new, dget (t_id tk) (fm_list fm) = Some old /\ incremented fm old tk count new
      /\ add_failure fm tk same count obs
         = (with_total (fm_total fm + 1) (with_list (dset (t_id tk) new (fm_list fm)) fm), t_retry new))
  \/ (exists old new, dget (t_id tk) (fm_list fm) = Some old /\ incremented fm old tk count new
      /\ obs || t_isban tk = true
      /\ add_failure fm tk same count obs
         = (with_list (dset (t_id tk) new (fm_list fm)) fm, t_retry tk))
  \/ (exists old, dget (t_id tk) (fm_list fm) = Some old /\ obs || t_isban tk = false
      /\ exists l, (forall k, dget k l = if eqb k (t_id tk) then Some (first_entry tk count) else dget k (fm_list fm))
         /\ dkeys l = dkeys (fm_list fm)
         /\ add_failure fm tk same count obs
            = (with_total (fm_total fm + 1) (with_list l fm), t_retry (first_entry tk count)))
  \/ (dget (t_id tk) (fm_list fm) = None /\ obs || t_isban tk = true
      /\ add_failure fm tk same count obs = (fm, t_retry tk))
  \/ (dget (t_id tk) (fm_list fm) = None /\ obs || t_isban tk = false
      /\ add_failure fm tk same count obs
         = (with_total (fm_total fm + 1)
              (with_list (dset (t_id tk) (first_entry tk count) (fm_list fm)) fm),
            t_retry (first_entry tk count))).
Proof.
  unfold add_failure. destruct (add_known fm tk same count) as [[f b]|] eqn:E.
  - apply add_known_incr in E as (old & Ho & Hi). cbn [fst] in Hi.
    destruct b.
    + destruct (obs || t_isban tk) eqn:Eo.
      * right; left. exists old, f. auto.
      * right; right; left. exists old. split; [auto|]. split; [auto|].
        exists (dset (t_id tk) (first_entry tk count) (dset (t_id tk) f (fm_list fm))).
        assert (Hk : In (t_id tk) (dkeys (fm_list fm))) by (eapply dget_key; eauto).
        split; [|split].
        -- intros k. rewrite !dget_dset. now destruct (eqb k (t_id tk)).
        -- rewrite dkeys_dset_mem; rewrite dkeys_dset_mem by exact Hk; auto.
        -- reflexivity.
    + left. exists old, f. auto.
  - assert (Hn : dget (t_id tk) (fm_list fm) = None).
    { unfold add_known in E. destruct (dget (t_id tk) (fm_list fm)); [|reflexivity].
      destruct (inc _ _ _ _) as [? []]; discriminate. }
    destruct (obs || t_isban tk) eqn:Eo; [right; right; right; left | right; right; right; right]; auto.
Qed.

Lemma incremented_nonneg fm old tk count new :
  0 <= fm_time fm -> 0 <= t_retry old -> 0 <= count -> incremented fm old tk count new ->
  0 <= t_retry new <= t_retry old + count.
Proof.
  intros Hm Hr Hc (_ & _ & E & _). rewrite E.
  pose proof (adjust_retry_bounds (t_time tk) (fm_time fm) old Hm Hr). lia.
Qed.

(** The tracked entry dominates the stored ticket. *)
Definition dominated (fm : failmgr) (id : string) (e : option entry) : Prop :=
  (forall en, e = Some en -> 0 <= e_weight en) /\
  forall t, dget id (fm_list fm) = Some t ->
    exists en, e = Some en /\ t_retry t <= e_weight en /\ t_time t <= e_last en.

Lemma fm_step_time fm o : fm_time (fst (fm_step fm o)) = match o with FSetTime n => n | _ => fm_time fm end.
Proof.
  destruct o; cbn.
  - destruct (add_failure_cases fm tk false count observed)
      as [(?&?&_&_&->)|[(?&?&_&_&_&->)|[(?&_&_&?&_&_&->)|[(_&_&->)|(_&_&->)]]]]; reflexivity.
  - destruct (dget id (fm_list fm)) as [tk|] eqn:E; [|reflexivity].
    destruct (add_failure_cases fm tk true count observed)
      as [(?&?&_&_&->)|[(?&?&_&_&_&->)|[(?&_&_&?&_&_&->)|[(_&_&->)|(_&_&->)]]]]; reflexivity.
  - apply cleanup_other.
  - reflexivity.
  - destruct (to_ban fm id) as [fm' r] eqn:E.
    unfold to_ban in E. destruct (first_bannable _ _) as [[k t]|]; injection E as <- <-; reflexivity.
  - reflexivity.
  - reflexivity.
  - reflexivity.
Qed.

Lemma fm_step_maxm fm o : fm_maxm (fst (fm_step fm o)) = match o with FSetMatches n => n | _ => fm_maxm fm end.
Proof.
  destruct o; cbn.
  - destruct (add_failure_cases fm tk false count observed)
      as [(?&?&_&_&->)|[(?&?&_&_&_&->)|[(?&_&_&?&_&_&->)|[(_&_&->)|(_&_&->)]]]]; reflexivity.
  - destruct (dget id (fm_list fm)) as [tk|] eqn:E; [|reflexivity].
    destruct (add_failure_cases fm tk true count observed)
      as [(?&?&_&_&->)|[(?&?&_&_&_&->)|[(?&_&_&?&_&_&->)|[(_&_&->)|(_&_&->)]]]]; reflexivity.
  - apply cleanup_other.
  - reflexivity.
  - destruct (to_ban fm id) as [fm' r] eqn:E.
    unfold to_ban in E. destruct (first_bannable _ _) as [[k t]|]; injection E as <- <-; reflexivity.
  - reflexivity.
  - reflexivity.
  - reflexivity.
Qed.

Definition wf_entries (d : dict string ticket) : Prop :=
  dwf d /\ forall k t, dget k d = Some t -> t_id t = k /\ 0 <= t_retry t.

Lemma wf_add fm tk same count obs :
  wf_fm fm -> 0 <= count -> 0 <= t_retry tk ->
  wf_entries (fm_list (fst (add_failure fm tk same count obs))).
Proof.
  intros Hwf Hc Hr. pose proof Hwf as (Hd & Hk & Ht).
  assert (Hfe : 0 <= t_retry (first_entry tk count))
    by (rewrite first_entry_retry; destruct (_ >? _); lia).
  destruct (add_failure_cases fm tk same count obs)
    as [(old&new&Ho&Hi&->)|[(old&new&Ho&Hi&_&->)|[(old&Ho&_&l&Hl&Hkl&->)|[(_&_&->)|(_&_&->)]]]];
    cbn [fst fm_list with_list with_total].
  - destruct (Hk _ _ Ho) as [Hid Hro]. pose proof (incremented_nonneg _ _ _ _ _ Ht Hro Hc Hi).
    apply wf_dset; [exact Hwf | destruct Hi; congruence | lia].
  - destruct (Hk _ _ Ho) as [Hid Hro]. pose proof (incremented_nonneg _ _ _ _ _ Ht Hro Hc Hi).
    apply wf_dset; [exact Hwf | destruct Hi; congruence | lia].
  - split; [unfold dwf; now rewrite Hkl|]. intros k t. rewrite Hl.
    destruct (eqb_spec k (t_id tk)) as [->|N]; [|apply Hk].
    intros E; injection E as <-. rewrite first_entry_id. auto.
  - exact (conj Hd Hk).
  - apply wf_dset; [exact Hwf | apply first_entry_id | exact Hfe].
Qed.

Lemma wf_entries_ddel d k : wf_entries d -> wf_entries (ddel k d).
Proof.
  intros [Hd Hk]. split; [now apply dwf_ddel|]. intros k' t. rewrite dget_ddel by exact Hd.
  destruct (eqb k' k); [discriminate | apply Hk].
Qed.

Lemma wf_step fm o : wf_fm fm -> sane_op o -> wf_fm (fst (fm_step fm o)).
Proof.
  intros Hwf Hs. pose proof Hwf as (Hd & Hk & Ht).
  assert (HT : 0 <= fm_time (fst (fm_step fm o))).
  { rewrite fm_step_time. destruct o; cbn in Hs; auto. }
  assert (G : wf_entries (fm_list (fst (fm_step fm o)))).
  { clear HT. destruct o; cbn [fm_step].
    - cbn in Hs. pose proof (wf_add fm tk false count observed Hwf ltac:(lia) ltac:(lia)) as G.
      destruct (add_failure fm tk false count observed); exact G.
    - cbn in Hs. destruct (dget id (fm_list fm)) as [tk|] eqn:E; [|exact (conj Hd Hk)].
      pose proof (wf_add fm tk true count observed Hwf ltac:(lia) ltac:(apply (Hk _ _ E))) as G.
      destruct (add_failure fm tk true count observed); exact G.
    - cbn [fst]. rewrite cleanup_list by exact Hd. split; [now apply dwf_filter|].
      intros k t. rewrite dget_filter by exact Hd.
      destruct (dget k (fm_list fm)) as [t'|] eqn:E; [|discriminate].
      destruct (negb _); [|discriminate]. intros X; injection X as <-. now apply Hk.
    - cbn. apply wf_entries_ddel. exact (conj Hd Hk).
    - destruct (to_ban fm id) as [fm' r] eqn:E; cbn [fst].
      destruct (to_ban_cases _ _ _ _ Hd E) as [(k&t&_&_&_&->&_)|(_&->)]; [|exact (conj Hd Hk)].
      cbn. apply wf_entries_ddel. exact (conj Hd Hk).
    - exact (conj Hd Hk).
    - exact (conj Hd Hk).
    - exact (conj Hd Hk). }
  destruct G. split; auto.
Qed.

(** ** C01: the tracked weight dominates the counter *)
Lemma dominated_known fm fm' id e old new tk count obs w :
  dominated fm id e -> 0 <= fm_time fm -> 0 <= t_retry old -> 0 <= count -> count <= w ->
  dget id (fm_list fm) = Some old -> incremented fm old tk count new ->
  (forall t, dget id (fm_list fm') = Some t -> t = new) ->
  t_id tk = id ->
  forall L, dominated fm' id
    (match e with
     | None => if obs : bool then None else Some L
     | Some e => Some {| e_last := Z.max (e_last e) (t_time tk); e_weight := e_weight e + w;
                         e_reports := S (e_reports e); e_lines := e_lines e ++ op_lines tk |}
     end).
Proof.
  intros [HD1 HD2] Hm Hr Hc Hw Ho Hi Hn Hid L.
  destruct (HD2 _ Ho) as (en & -> & H1 & H2).
  pose proof (incremented_nonneg _ _ _ _ _ Hm Hr Hc Hi) as H3.
  specialize (HD1 _ eq_refl). destruct Hi as (_ & Ht & _).
  split.
  - intros en' E; injection E as <-; cbn. lia.
  - intros t Et. apply Hn in Et as ->. eexists; split; [reflexivity|]. cbn. lia.
Qed.

Lemma dominated_same_lookup fm fm' id e :
  dget id (fm_list fm') = dget id (fm_list fm) -> dominated fm id e -> dominated fm' id e.
Proof. intros E [H1 H2]. split; [exact H1|]. intros t. rewrite E. apply H2. Qed.

Lemma dominated_gone fm id e :
  dget id (fm_list fm) = None -> (forall en, e = Some en -> 0 <= e_weight en) -> dominated fm id e.
Proof. intros E H. split; [exact H|]. intros t. rewrite E. discriminate. Qed.

Lemma dominated_add fm tk same count obs e :
  wf_fm fm -> 0 <= count -> 0 <= t_retry tk -> 0 <= t_failures tk -> dominated fm (t_id tk) e ->
  dominated (fst (add_failure fm tk same count obs)) (t_id tk)
    (match e with
     | None => if obs || t_isban tk then None
               else Some {| e_last := t_time tk; e_weight := report_weight tk count;
                            e_reports := 1; e_lines := op_lines tk |}
     | Some e => Some {| e_last := Z.max (e_last e) (t_time tk);
                         e_weight := e_weight e + report_weight tk count;
                         e_reports := S (e_reports e); e_lines := e_lines e ++ op_lines tk |}
     end).
Proof.
  intros Hwf Hc Hr Hf HD. pose proof Hwf as (Hd & Hk & Ht).
  pose proof HD as [HD1 HD2].
  assert (Hw : count <= report_weight tk count) by (unfold report_weight; lia).
  assert (Hfe : t_retry (first_entry tk count) <= report_weight tk count).
  { rewrite first_entry_retry. unfold report_weight. destruct (_ >? _); lia. }
  assert (Hnn : 0 <= report_weight tk count) by (unfold report_weight; lia).
  assert (Hrep : forall t, t = first_entry tk count ->
    exists en, match e with
     | None => Some {| e_last := t_time tk; e_weight := report_weight tk count;
                            e_reports := 1; e_lines := op_lines tk |}
     | Some e => Some {| e_last := Z.max (e_last e) (t_time tk);
                         e_weight := e_weight e + report_weight tk count;
                         e_reports := S (e_reports e); e_lines := e_lines e ++ op_lines tk |}
     end = Some en /\ t_retry t <= e_weight en /\ t_time t <= e_last en).
  { intros t ->. rewrite first_entry_time. destruct e as [e|]; eexists; (split; [reflexivity|]); cbn.
    - specialize (HD1 _ eq_refl). lia.
    - lia. }
  destruct (add_failure_cases fm tk same count obs)
    as [(old&new&Ho&Hi&->)|[(old&new&Ho&Hi&_&->)|[(old&Ho&Hob&l&Hl&Hkl&->)|[(Hn&Hob&->)|(Hn&Hob&->)]]]];
    cbn [fst].
  - destruct (Hk _ _ Ho) as [_ Hro].
    apply (dominated_known fm _ (t_id tk) e old new tk count (obs || t_isban tk) _
             HD Ht Hro Hc Hw Ho Hi); [|reflexivity].
    cbn. intros t. rewrite dget_dset_same. congruence.
  - destruct (Hk _ _ Ho) as [_ Hro].
    apply (dominated_known fm _ (t_id tk) e old new tk count (obs || t_isban tk) _
             HD Ht Hro Hc Hw Ho Hi); [|reflexivity].
    cbn. intros t. rewrite dget_dset_same. congruence.
  - rewrite Hob. split.
    + intros en. destruct e as [e|]; intros E; injection E as <-; cbn; [|lia].
      specialize (HD1 _ eq_refl). lia.
    + cbn. intros t. rewrite Hl, eqb_refl. intros E; injection E as <-. now apply Hrep.
  - apply dominated_gone; [exact Hn|].
    intros en. destruct e as [e|].
    + intros E; injection E as <-; cbn. specialize (HD1 _ eq_refl). lia.
    + rewrite Hob. discriminate.
  - rewrite Hob. split.
    + intros en. destruct e as [e|]; intros E; injection E as <-; cbn; [|lia].
      specialize (HD1 _ eq_refl). lia.
    + cbn. intros t. rewrite dget_dset_same. intros E; injection E as <-. now apply Hrep.
Qed.

Lemma add_failure_other fm tk same count obs id :
  t_id tk <> id -> dget id (fm_list (fst (add_failure fm tk same count obs))) = dget id (fm_list fm).
Proof.
  intros N.
  destruct (add_failure_cases fm tk same count obs)
    as [(old&new&Ho&Hi&->)|[(old&new&Ho&Hi&_&->)|[(old&Ho&Hob&l&Hl&Hkl&->)|[(Hn&Hob&->)|(Hn&Hob&->)]]]];
    cbn [fst fm_list with_list with_total]; try (rewrite dget_dset_other by congruence); auto.
  rewrite Hl. destruct (eqb_spec id (t_id tk)); [congruence | reflexivity].
Qed.

Lemma add_same fm id tk count obs :
  dget id (fm_list fm) = Some tk -> t_id tk = id ->
  exists new, incremented fm tk tk count new /\
    add_failure fm tk true count obs
    = (with_total (fm_total fm + 1) (with_list (dset id new (fm_list fm)) fm), t_retry new).
Proof.
  intros Hg Hid.
  destruct (add_known fm tk true count) as [[f b]|] eqn:E.
  - pose proof (add_known_incr _ _ _ _ _ E) as (old & Ho & Hi). cbn [fst] in Hi.
    rewrite Hid, Hg in Ho. injection Ho as <-. exists f. split; [exact Hi|].
    assert (b = false) as ->.
    { unfold add_known in E. rewrite Hid, Hg in E. cbn in E. congruence. }
    unfold add_failure. rewrite E, Hid. reflexivity.
  - exfalso. unfold add_known in E. rewrite Hid, Hg in E. discriminate.
Qed.

Lemma dominated_step fm o id st :
  wf_fm fm -> sane_op o -> fst st = fm_time fm -> dominated fm id (snd st) ->
  let '(fm', out) := fm_step fm o in
  fst (track1 id st (o, out)) = fm_time fm' /\ dominated fm' id (snd (track1 id st (o, out))).
Proof.
  intros Hwf Hs Hf HD. pose proof Hwf as (Hd & Hk & Ht).
  pose proof (fm_step_time fm o) as HT.
  destruct st as [ft e]. cbn [fst snd] in *. subst ft.
  destruct o; cbn [fm_step] in *.
  - cbn in Hs. pose proof (dominated_add fm tk false count observed e Hwf ltac:(lia) ltac:(lia) ltac:(lia)) as H1.
    pose proof (add_failure_other fm tk false count observed id) as H2.
    destruct (add_failure fm tk false count observed) as [fm' n]. cbn [fst] in *. cbn [track1].
    destruct (eqb_spec (t_id tk) id) as [<-|N]; cbn [fst snd]; [auto|].
    split; [auto|]. eapply dominated_same_lookup; [apply H2; exact N | exact HD].
  - cbn in Hs. destruct (dget id0 (fm_list fm)) as [tk|] eqn:E0.
    + destruct (Hk _ _ E0) as [Hid0 Hr0].
      destruct (add_same fm id0 tk count observed E0 Hid0) as (new & Hi & HE).
      rewrite HE. cbn [track1]. destruct (eqb_spec id0 id) as [->|N]; cbn [fst snd].
      * split; [reflexivity|].
        destruct HD as [HD1 HD2]. destruct (HD2 _ E0) as (en & -> & H1 & H2).
        pose proof (incremented_nonneg _ _ _ _ _ Ht Hr0 Hs Hi) as H3.
        destruct Hi as (_ & Hti & _). specialize (HD1 _ eq_refl).
        split; [intros en' X; injection X as <-; cbn; lia|].
        cbn. intros t. rewrite dget_dset_same. intros X; injection X as <-.
        eexists; split; [reflexivity|]. cbn. lia.
      * split; [reflexivity|]. eapply dominated_same_lookup; [|exact HD]. cbn.
        apply dget_dset_other. congruence.
    + cbn [track1]. destruct (eqb_spec id0 id) as [->|N]; cbn [fst snd]; [|auto].
      split; [reflexivity|]. apply dominated_gone; [exact E0|]. 
      intros en. destruct e as [e|]; [|discriminate]. intros X; injection X as <-. cbn.
      destruct HD as [HD1 _]. specialize (HD1 _ eq_refl). lia.
  - cbn [fst track1] in *. split; [auto|]. destruct HD as [HD1 HD2]. split.
    + intros en. cbn. destruct e as [e|]; [|discriminate]. destruct (_ <=? _); [discriminate|]. auto.
    + intros t. rewrite cleanup_list by exact Hd. rewrite dget_filter by exact Hd.
      destruct (dget id (fm_list fm)) as [t0|]; [|discriminate]. cbn.
      destruct (Z.leb_spec (t_time t0) (time - fm_time fm)); cbn; [discriminate|].
      intros X; injection X as <-. destruct (HD2 _ eq_refl) as (en & -> & H1 & H2).
      destruct (Z.leb_spec (e_last en) (time - fm_time fm)); [lia|]. eauto.
  - cbn [track1]. destruct (eqb_spec id0 id) as [->|N]; cbn.
    + split; [auto|]. apply dominated_gone; [now apply dget_ddel_same | discriminate].
    + split; [auto|]. eapply dominated_same_lookup; [|exact HD]. cbn. apply dget_ddel_other. congruence.
  - destruct (to_ban fm id0) as [fm' r] eqn:E. cbn [fst] in *.
    destruct (to_ban_cases _ _ _ _ Hd E) as [(k&t&->&Hg&_&->&_)|(->&->)]; cbn [track1]; [|auto].
    destruct (Hk _ _ Hg) as [Hid _].
    destruct (eqb_spec (t_id t) id) as [<-|N]; cbn [fst snd].
    + split; [auto|]. apply dominated_gone; [|discriminate]. cbn. rewrite Hid. now apply dget_ddel_same.
    + split; [auto|]. eapply dominated_same_lookup; [|exact HD]. cbn. apply dget_ddel_other. congruence.
  - cbn. auto.
  - cbn. auto.
  - cbn. auto.
Qed.

(** ** Runs *)
Lemma fm_run_app fm ops1 ops2 :
  fm_run fm (ops1 ++ ops2) =
  let '(fm1, o1) := fm_run fm ops1 in let '(fm2, o2) := fm_run fm1 ops2 in (fm2, o1 ++ o2).
Proof.
  revert fm. induction ops1 as [|o ops IH]; intros fm; cbn.
  - now destruct (fm_run fm ops2).
  - destruct (fm_step fm o) as [fm' out]. rewrite IH.
    destruct (fm_run fm' ops) as [fm1 o1]. now destruct (fm_run fm1 ops2).
Qed.

Lemma run_dominated ops : forall fm id st fm' outs,
  wf_fm fm -> Forall sane_op ops -> fst st = fm_time fm -> dominated fm id (snd st) ->
  fm_run fm ops = (fm', outs) ->
  wf_fm fm' /\ dominated fm' id (snd (fold_left (track1 id) (combine ops outs) st)).
Proof.
  induction ops as [|o ops IH]; cbn; intros fm id st fm' outs Hwf Hs Hf HD E.
  - injection E as <- <-. cbn. auto.
  - inversion Hs as [|? ? Ho Hs']; subst.
    pose proof (dominated_step fm o id st Hwf Ho Hf HD) as HS.
    pose proof (wf_step fm o Hwf Ho) as HW.
    destruct (fm_step fm o) as [fm1 out] eqn:E1. destruct HS as [HS1 HS2].
    destruct (fm_run fm1 ops) as [fm2 outs2] eqn:E2. injection E as <- <-.
    cbn [combine fold_left]. eapply IH; eauto.
Qed.

Lemma fresh_wf fm : fresh_fm fm -> wf_fm fm.
Proof.
  intros [E H]. unfold wf_fm. rewrite E. split; [apply dwf_nil|]. split; [|exact H].
  cbn. discriminate.
Qed.

Lemma retry_le_reported fm ops fm' outs id t :
  fresh_fm fm -> Forall sane_op ops -> fm_run fm ops = (fm', outs) ->
  dget id (fm_list fm') = Some t ->
  exists e, track id (fm_time fm) (combine ops outs) = Some e /\ t_retry t <= e_weight e.
Proof.
  intros Hf Hs Hr Hg.
  destruct (run_dominated ops fm id (fm_time fm, None) fm' outs) as [_ [_ HD]]; auto.
  - now apply fresh_wf.
  - destruct Hf as [Hl _]. cbn. apply dominated_gone; [now rewrite Hl | discriminate].
  - destruct (HD _ Hg) as (e & E & H & _). exists e. auto.
Qed.

Lemma ban_needs_maxretry fm ops fm' outs q fm'' t :
  fresh_fm fm -> Forall sane_op ops -> fm_run fm ops = (fm', outs) ->
  to_ban fm' q = (fm'', Some t) ->
  exists e, track (t_id t) (fm_time fm) (combine ops outs) = Some e /\ fm_retry fm' <= e_weight e.
Proof.
  intros Hf Hs Hr Hb.
  destruct (run_dominated ops fm (t_id t) (fm_time fm, None) fm' outs) as [Hwf _]; auto.
  { now apply fresh_wf. }
  { destruct Hf as [Hl _]. cbn. apply dominated_gone; [now rewrite Hl | discriminate]. }
  destruct Hwf as (Hd & Hk & _).
  destruct (to_ban_cases _ _ _ _ Hd Hb) as [(k&t'&E&Hg&Hm&_&_)|(E&_)]; [|discriminate].
  injection E as <-. destruct (Hk _ _ Hg) as [<- _].
  destruct (retry_le_reported fm ops fm' outs _ t Hf Hs Hr Hg) as (e & He & Hle).
  exists e. split; [exact He | lia].
Qed.

(** ** C05, C03: exact tracking while the maxMatches setting is fixed *)
Lemma last_n_all {A} n (l : list A) : (length l <= n)%nat -> last_n n l = l.
Proof. intros H. unfold last_n. replace (length l - n)%nat with 0%nat by lia. reflexivity. Qed.

Lemma last_n_app {A} n (l x : list A) : last_n n (last_n n l ++ x) = last_n n (l ++ x).
Proof.
  destruct (Nat.le_gt_cases (length l) n) as [H|H]; [now rewrite (last_n_all n l)|].
  assert (E : exists P R, l = P ++ R /\ last_n n l = R /\ length R = n).
  { exists (firstn (length l - n) l), (last_n n l). split; [unfold last_n; symmetry; apply firstn_skipn|].
    split; [reflexivity|]. rewrite last_n_length. lia. }
  destruct E as (P & R & -> & -> & HR). unfold last_n. rewrite !app_length.
  replace (length R + length x - n)%nat with (length x) by lia.
  replace (length P + length R + length x - n)%nat with (length P + length x)%nat by lia.
  rewrite <- app_assoc, (skipn_app (length P + length x) P), (skipn_all2 P) by lia.
  cbn. f_equal. lia.
Qed.

Definition stored_lines (m : nat) (e : entry) : list string :=
  match e_reports e with
  | 1%nat => e_lines e
  | _ => match m with O => [] | _ => last_n m (e_lines e) end
  end.

Definition exact_entry (fm : failmgr) (id : string) (e : option entry) : Prop :=
  match dget id (fm_list fm), e with
  | None, None => True
  | Some t, Some en => t_time t = e_last en /\ get_matches t = stored_lines (fm_maxm fm) en
                       /\ (1 <= e_reports en)%nat
                       /\ (fm_maxm fm <> 0%nat -> t_matches t <> None)
  | _, _ => False
  end.

Lemma truncate_S_matches m t l : t_matches t = Some l ->
  t_matches (truncate (S m) t) = Some (last_n (S m) l).
Proof.
  intros E. unfold truncate, get_matches. rewrite E.
  destruct (Nat.ltb_spec (S m) (length l)) as [H|H].
  - unfold set_matches. pose proof (last_n_length (S m) l) as HL.
    destruct (last_n (S m) l) as [|x y]; [cbn [length] in HL; lia | reflexivity].
  - now rewrite last_n_all by lia.
Qed.

Lemma add_known_fixed fm tk same count old :
  dget (t_id tk) (fm_list fm) = Some old ->
  (fm_maxm fm <> 0%nat -> t_matches old <> None) ->
  exists new, add_known fm tk same count = Some (new, false) /\
    incremented fm old tk count new /\
    (forall m, fm_maxm fm = S m -> t_matches new
       = Some (last_n (S m) (get_matches old ++ if same then [] else get_matches tk))) /\
    (fm_maxm fm = O -> t_matches new = None).
Proof.
  intros Hg Hm. destruct (add_known fm tk same count) as [[f b]|] eqn:E.
  2:{ exfalso. unfold add_known in E. rewrite Hg in E. destruct (inc _ _ _ _) as [? []]; discriminate. }
  pose proof (add_known_incr _ _ _ _ _ E) as (old' & Ho & Hi). cbn [fst] in Hi.
  rewrite Hg in Ho; injection Ho as <-.
  unfold add_known in E. rewrite Hg in E.
  destruct (fm_maxm fm) as [|m] eqn:Em.
  - assert (HM : (if same then None else None) = @None (list string)) by now destruct same.
    rewrite HM in E. cbn in E. injection E as <- <-.
    eexists; split; [reflexivity|]. split; [exact Hi|]. split; [discriminate|].
    intros _. reflexivity.
  - specialize (Hm ltac:(discriminate)).
    destruct (t_matches old) as [lo|] eqn:Elo; [|congruence].
    set (ad := adjust_time (t_time tk) (fm_time fm) old) in *.
    assert (Had : t_matches ad = Some lo) by (unfold ad; rewrite adjust_matches; exact Elo).
    assert (Hinc : exists t', inc (if same then None else Some (get_matches tk))
                       (if same then 1 else if t_failures tk <=? 0 then t_failures tk + 1 else t_failures tk)
                       count ad = (t', false)
                     /\ t_matches t' = Some (lo ++ if same then [] else get_matches tk)).
    { unfold inc. destruct same.
      - eexists; split; [reflexivity|]. cbn. now rewrite app_nil_r.
      - destruct (get_matches tk) as [|x y].
        + eexists; split; [reflexivity|]. cbn. now rewrite app_nil_r.
        + cbn. rewrite Had. eexists; split; [reflexivity|]. reflexivity. }
    destruct Hinc as (t' & Hinc & Hmt). rewrite Hinc in E. injection E as <- <-.
    eexists; split; [reflexivity|]. split; [exact Hi|]. split; [|discriminate].
    intros m' Em'. injection Em' as <-.
    assert (Hgo : get_matches old = lo) by (unfold get_matches; now rewrite Elo).
    rewrite Hgo. now apply truncate_S_matches.
Qed.

Lemma exact_other fm fm' id e : dget id (fm_list fm') = dget id (fm_list fm) ->
  fm_maxm fm' = fm_maxm fm -> exact_entry fm id e -> exact_entry fm' id e.
Proof. intros E1 E2. unfold exact_entry. now rewrite E1, E2. Qed.

Lemma exact_gone fm id : dget id (fm_list fm) = None -> exact_entry fm id None.
Proof. intros E. unfold exact_entry. now rewrite E. Qed.

Lemma stored_known m old_lines en x :
  (1 <= e_reports en)%nat ->
  old_lines = stored_lines m en ->
  forall lst w, match m with O => [] | _ => last_n m (old_lines ++ x) end
  = stored_lines m {| e_last := lst; e_weight := w; e_reports := S (e_reports en);
                      e_lines := e_lines en ++ x |}.
Proof.
  intros Hr -> lst w. unfold stored_lines. cbn.
  destruct (e_reports en) as [|[|r]]; [lia| |]; destruct m as [|m]; auto.
  apply last_n_app.
Qed.

Lemma exact_step fm o id st :
  wf_fm fm -> sane_op o -> fixed_matches_op o -> fst st = fm_time fm -> exact_entry fm id (snd st) ->
  let '(fm', out) := fm_step fm o in exact_entry fm' id (snd (track1 id st (o, out))).
Proof.
  intros Hwf Hs Hfx Hf HX. pose proof Hwf as (Hd & Hk & Ht).
  pose proof (fm_step_maxm fm o) as HM.
  destruct st as [ft e]. cbn [fst snd] in *. subst ft.
  destruct o; cbn [fm_step] in *.
  - (* FAdd *)
    cbn in Hs, Hfx. destruct (eqb_spec (t_id tk) id) as [<-|N].
    2:{ pose proof (add_failure_other fm tk false count observed id N) as H2.
        destruct (add_failure fm tk false count observed) as [fm' n]. cbn [fst track1] in *.
        apply eqb_neq in N. rewrite N. cbn [snd]. eapply exact_other; eauto. }
    unfold add_failure in *. unfold exact_entry in HX.
    destruct (dget (t_id tk) (fm_list fm)) as [old|] eqn:Ho.
    + destruct e as [en|]; [|contradiction]. destruct HX as (H1 & H2 & H3 & H4).
      destruct (add_known_fixed fm tk false count old Ho H4) as (new & Ek & Hi & Hnm & Hnz).
      rewrite Ek in *. cbn [track1]. rewrite eqb_refl. cbn [snd].
      unfold exact_entry. cbn [fm_list with_list with_total fm_maxm]. rewrite dget_dset_same.
      cbn [e_last e_reports]. destruct Hi as (_ & Hti & _).
      split; [lia|]. split; [|split; [lia|]].
      * rewrite <- (stored_known (fm_maxm fm) (get_matches old) en (op_lines tk) H3 H2).
        unfold get_matches at 1. destruct (fm_maxm fm) as [|m] eqn:Em.
        -- now rewrite Hnz.
        -- rewrite (Hnm m eq_refl). unfold op_lines, get_matches. reflexivity.
      * intros Hz. destruct (fm_maxm fm) as [|m]; [congruence|]. rewrite (Hnm m eq_refl). discriminate.
    + destruct e as [en|]; [contradiction|].
      assert (Ek : add_known fm tk false count = None) by (unfold add_known; now rewrite Ho).
      rewrite Ek in *. cbn [track1]. 
      destruct (observed || t_isban tk) eqn:Eo; rewrite eqb_refl; cbn [snd].
      * now apply exact_gone.
      * unfold exact_entry. cbn [fm_list with_list with_total fm_maxm]. rewrite dget_dset_same.
        rewrite first_entry_time. cbn. split; [reflexivity|].
        unfold get_matches. rewrite first_entry_matches by lia.
        split; [reflexivity|]. split; [lia|]. auto.
  - (* FAddSame *)
    cbn in Hs. destruct (dget id0 (fm_list fm)) as [tk|] eqn:E0.
    + destruct (Hk _ _ E0) as [Hid0 Hr0].
      destruct (eqb_spec id0 id) as [->|N].
      * assert (HX' := HX). unfold exact_entry in HX'. rewrite E0 in HX'.
        destruct e as [en|]; [|contradiction]. destruct HX' as (H1 & H2 & H3 & H4).
        rewrite <- Hid0 in E0.
        destruct (add_known_fixed fm tk true count tk E0 H4) as (new & Ek & Hi & Hnm & Hnz).
        unfold add_failure in *. rewrite Ek in *. cbn [track1]. rewrite eqb_refl. cbn [snd].
        unfold exact_entry. cbn [fm_list with_list with_total fm_maxm]. rewrite Hid0, dget_dset_same.
        cbn [e_last e_reports]. destruct Hi as (_ & Hti & _).
        split; [lia|]. split; [|split; [lia|]].
        -- replace (e_lines en) with (e_lines en ++ []) by apply app_nil_r.
           rewrite <- (stored_known (fm_maxm fm) (get_matches tk) en [] H3 H2).
           unfold get_matches at 1. destruct (fm_maxm fm) as [|m] eqn:Em.
           ++ now rewrite Hnz.
           ++ now rewrite (Hnm m eq_refl).
        -- intros Hz. destruct (fm_maxm fm) as [|m]; [congruence|]. rewrite (Hnm m eq_refl). discriminate.
      * pose proof (add_failure_other fm tk true count observed id ltac:(congruence)) as H2.
        destruct (add_failure fm tk true count observed) as [fm' n]. cbn [fst track1] in *.
        apply eqb_neq in N. rewrite N. cbn [snd]. eapply exact_other; eauto.
    + cbn [track1]. destruct (eqb_spec id0 id) as [->|N]; cbn [snd]; [|exact HX].
      unfold exact_entry in HX. rewrite E0 in HX. destruct e; [contradiction|].
      now apply exact_gone.
  - (* FCleanup *)
    cbn [fst track1 snd] in *. unfold exact_entry in *.
    rewrite cleanup_list by exact Hd. rewrite dget_filter by exact Hd. rewrite HM.
    destruct (dget id (fm_list fm)) as [t|].
    + destruct e as [en|]; [|contradiction]. destruct HX as (H1 & HX). cbn [snd]. rewrite H1.
      destruct (Z.leb_spec (e_last en) (time - fm_time fm)); cbn; auto.
    + destruct e; [contradiction|]. exact I.
  - cbn [track1]. destruct (eqb_spec id0 id) as [->|N]; cbn [snd].
    + apply exact_gone. now apply dget_ddel_same.
    + apply (exact_other fm); [|reflexivity|exact HX]. cbn. apply dget_ddel_other. congruence.
  - destruct (to_ban fm id0) as [fm' r] eqn:E. cbn [fst] in *.
    destruct (to_ban_cases _ _ _ _ Hd E) as [(k&t&->&Hg&_&->&_)|(->&->)]; cbn [track1]; [|auto].
    destruct (Hk _ _ Hg) as [Hid _].
    destruct (eqb_spec (t_id t) id) as [<-|N]; cbn [fst snd].
    + apply exact_gone. cbn. rewrite Hid. now apply dget_ddel_same.
    + apply (exact_other fm); [|reflexivity|exact HX]. cbn. apply dget_ddel_other. congruence.
  - exact HX.
  - exact HX.
  - contradiction.
Qed.

Lemma track1_time id fm st o : fst st = fm_time fm ->
  let '(fm', out) := fm_step fm o in fst (track1 id st (o, out)) = fm_time fm'.
Proof.
  intros H. pose proof (fm_step_time fm o) as HT. destruct (fm_step fm o) as [fm' out].
  cbn [fst] in HT. rewrite HT. destruct st as [ft e]. cbn in H. subst ft.
  destruct o; cbn; try reflexivity.
  - now destruct (eqb _ _).
  - now destruct (eqb _ _).
  - now destruct (eqb _ _).
  - destruct out as [| |[t|]]; try reflexivity. now destruct (eqb _ _).
Qed.

Lemma run_exact ops : forall fm id st fm' outs,
  wf_fm fm -> Forall sane_op ops -> Forall fixed_matches_op ops -> fst st = fm_time fm ->
  exact_entry fm id (snd st) -> fm_run fm ops = (fm', outs) ->
  fm_maxm fm' = fm_maxm fm /\ exact_entry fm' id (snd (fold_left (track1 id) (combine ops outs) st)).
Proof.
  induction ops as [|o ops IH]; cbn; intros fm id st fm' outs Hwf Hs Hx Hf HD E.
  - injection E as <- <-. cbn. auto.
  - inversion Hs as [|? ? Ho Hs']; subst. inversion Hx as [|? ? Hox Hx']; subst.
    pose proof (exact_step fm o id st Hwf Ho Hox Hf HD) as HS.
    pose proof (track1_time id fm st o Hf) as HT.
    pose proof (wf_step fm o Hwf Ho) as HW.
    pose proof (fm_step_maxm fm o) as HM.
    destruct (fm_step fm o) as [fm1 out] eqn:E1.
    destruct (fm_run fm1 ops) as [fm2 outs2] eqn:E2. injection E as <- <-.
    cbn [combine fold_left fst] in *. destruct (IH fm1 id _ fm2 outs2 HW Hs' Hx' HT HS E2) as [H1 H2].
    split; [|exact H2]. rewrite H1, HM. destruct o; auto; contradiction.
Qed.

Lemma tracked_exactly fm ops fm' outs id :
  fresh_fm fm -> Forall sane_op ops -> Forall fixed_matches_op ops ->
  fm_run fm ops = (fm', outs) ->
  match dget id (fm_list fm'), track id (fm_time fm) (combine ops outs) with
  | None, None => True
  | Some t, Some e =>
      t_time t = e_last e /\
      get_matches t = (if Nat.eqb (e_reports e) 1 then e_lines e
                       else match fm_maxm fm with O => [] | m => last_n m (e_lines e) end)
  | _, _ => False
  end.
Proof.
  intros Hf Hs Hx Hr.
  destruct (run_exact ops fm id (fm_time fm, None) fm' outs) as [HM HX]; auto.
  - now apply fresh_wf.
  - destruct Hf as [Hl _]. apply exact_gone. cbn. now rewrite Hl.
  - unfold exact_entry in HX. unfold track.
    destruct (dget id (fm_list fm')), (snd (fold_left _ _ _)); auto.
    destruct HX as (H1 & H2 & H3 & _). split; [auto|]. rewrite H2, HM. unfold stored_lines.
    destruct (e_reports e) as [|[|r]], (fm_maxm fm); reflexivity.
Qed.

(** ** C02: exact counting inside one window *)
Definition windowed (id : string) (t0 : Z) (n : nat) (fm : failmgr) : Prop :=
  match n with
  | O => dget id (fm_list fm) = None
  | _ => exists t, dget id (fm_list fm) = Some t /\ t_retry t = Z.of_nat n /\ t_first t = t0
           /\ t0 <= t_time t /\ (fm_maxm fm <> 0%nat -> t_matches t <> None)
  end.

Lemma windowed_other id t0 n fm fm' :
  dget id (fm_list fm') = dget id (fm_list fm) -> fm_maxm fm' = fm_maxm fm ->
  windowed id t0 n fm -> windowed id t0 n fm'.
Proof. intros E1 E2. unfold windowed. now rewrite E1, E2. Qed.

Lemma adjust_in_window t m tk : t - m <= t_first tk ->
  t_retry (adjust_time t m tk) = t_retry tk /\ t_first (adjust_time t m tk) = t_first tk.
Proof.
  intros H. unfold adjust_time. destruct (t >? t_time tk); [|auto].
  destruct (Z.ltb_spec (t_first tk) (t - m)); [lia|]. auto.
Qed.

Lemma window_step id t0 n fm o fm' out :
  wf_fm fm -> windowed id t0 n fm -> window_op id t0 (fm_time fm) o -> sane_op o ->
  (n = O -> forall t, report_times id [o] = [t] -> t = t0) ->
  (forall t, In t (report_times id [o]) -> t - fm_time fm <= t0) ->
  not_handed_out id [out] ->
  fm_step fm o = (fm', out) ->
  windowed id t0 (n + length (report_times id [o])) fm' /\ fm_time fm' = fm_time fm.
Proof.
  intros Hwf HW Ho Hs H0 Hin Hout E. pose proof Hwf as (Hd & Hk & Ht).
  pose proof (fm_step_time fm o) as HT. pose proof (fm_step_maxm fm o) as HM.
  rewrite E in HT, HM. cbn [fst] in HT, HM.
  split; [|rewrite HT; destruct o; auto; contradiction].
  destruct o; cbn [fm_step window_op report_times] in *; rewrite ?Nat.add_0_r.
  - destruct (eqb_spec (t_id tk) id) as [Hid|N].
    + destruct (Ho Hid) as (-> & -> & t & lines & ->). cbn [length new_ticket t_id t_time] in *.
      rewrite Nat.add_1_r.
      unfold add_failure in E. destruct n as [|n].
      * cbn in HW. rewrite (H0 eq_refl t eq_refl) in *.
        assert (Ek : add_known fm (new_ticket id t0 lines 0) false 1 = None)
          by (unfold add_known; cbn [t_id new_ticket]; now rewrite HW).
        rewrite Ek in E. cbn in E. injection E as <- _. cbn.
        exists (first_entry (new_ticket id t0 lines 0) 1).
        rewrite dget_dset_same. cbn. repeat split; try lia. discriminate.
      * destruct HW as (tk & Hg & Hr & Hf & Htt & Hmt).
        destruct (add_known_fixed fm (new_ticket id t lines 0) false 1 tk Hg Hmt) as (new & Ek & Hi & Hnm & Hnz).
        rewrite Ek in E. injection E as <- _. cbn [windowed fm_list with_list with_total fm_maxm].
        exists new. cbn [t_id new_ticket]. rewrite dget_dset_same. split; [reflexivity|].
        destruct Hi as (_ & Hti & Hre & Hfi). cbn [t_time new_ticket] in *.
        destruct (adjust_in_window t (fm_time fm) tk) as [A1 A2].
        { rewrite Hf. apply Hin. left; reflexivity. }
        rewrite A1 in Hre. rewrite A2 in Hfi. repeat split; try lia.
        destruct (fm_maxm fm) as [|m]; [congruence|]. intros _. rewrite (Hnm m eq_refl). discriminate.
    + cbn [length]; rewrite ?Nat.add_0_r.
      pose proof (add_failure_other fm tk false count observed id N) as H2.
      destruct (add_failure fm tk false count observed) as [fm1 n1]. injection E as <- _.
      eapply windowed_other; eauto.
  - cbn [length]; rewrite ?Nat.add_0_r.
    destruct (dget id0 (fm_list fm)) as [tk|] eqn:E0.
    + destruct (Hk _ _ E0) as [Hid0 _].
      pose proof (add_failure_other fm tk true count observed id ltac:(congruence)) as H2.
      destruct (add_failure fm tk true count observed) as [fm1 n1]. injection E as <- _.
      eapply windowed_other; eauto.
    + injection E as <- _. exact HW.
  - cbn [length]; rewrite ?Nat.add_0_r. injection E as <- _.
    assert (G : dget id (fm_list (cleanup fm time)) = dget id (fm_list fm)).
    { rewrite cleanup_list by exact Hd. rewrite dget_filter by exact Hd.
      destruct (dget id (fm_list fm)) as [t|] eqn:Eg; [|reflexivity]. cbn.
      destruct n as [|n]; cbn in HW; [congruence|].
      destruct HW as (t' & Hg & _ & _ & Htt & _). rewrite Eg in Hg. injection Hg as <-.
      destruct (Z.leb_spec (t_time t) (time - fm_time fm)); [lia | reflexivity]. }
    eapply windowed_other; eauto.
  - cbn [length]; rewrite ?Nat.add_0_r. injection E as <- _.
    eapply windowed_other; [|exact HM|exact HW]. cbn. apply dget_ddel_other. congruence.
  - cbn [length]; rewrite ?Nat.add_0_r.
    destruct (to_ban fm id0) as [fm1 r] eqn:Eb. injection E as <- <-.
    destruct (to_ban_cases _ _ _ _ Hd Eb) as [(k&t&->&Hg&_&->&_)|(->&->)]; [|exact HW].
    eapply windowed_other; [|exact HM|exact HW]. cbn. apply dget_ddel_other.
    destruct (Hk _ _ Hg) as [<- _]. intros ->. eapply Hout; [left; reflexivity|reflexivity].
  - cbn [length]; rewrite ?Nat.add_0_r. injection E as <- _. exact HW.
  - contradiction.
  - contradiction.
Qed.

Lemma report_times_cons id o ops :
  report_times id (o :: ops) = report_times id [o] ++ report_times id ops.
Proof. destruct o; cbn; try reflexivity. now destruct (eqb _ _). Qed.

Lemma report_times_1 id o : (length (report_times id [o]) <= 1)%nat.
Proof. destruct o; cbn; try lia. destruct (eqb _ _); cbn; lia. Qed.

Lemma window_run id t0 ops : forall n fm fm' outs,
  wf_fm fm -> windowed id t0 n fm -> Forall (window_op id t0 (fm_time fm)) ops -> Forall sane_op ops ->
  (n = O -> forall t, hd_error (report_times id ops) = Some t -> t = t0) ->
  (forall t, In t (report_times id ops) -> t - fm_time fm <= t0) ->
  not_handed_out id outs ->
  fm_run fm ops = (fm', outs) ->
  windowed id t0 (n + length (report_times id ops)) fm'.
Proof.
  induction ops as [|o ops IH]; intros n fm fm' outs Hwf HW Ho Hs H0 Hin Hout E.
  - cbn in E. injection E as <- _. cbn. now rewrite Nat.add_0_r.
  - cbn [fm_run] in E. destruct (fm_step fm o) as [fm1 out] eqn:E1.
    destruct (fm_run fm1 ops) as [fm2 outs2] eqn:E2. injection E as <- <-.
    inversion Ho as [|? ? Ho1 Ho2]; subst. inversion Hs as [|? ? Hs1 Hs2]; subst.
    rewrite report_times_cons in *. 
    destruct (window_step id t0 n fm o fm1 out Hwf HW Ho1 Hs1) as [HW1 HT1]; auto.
    + intros Hn t Et. apply H0; [exact Hn|]. now rewrite Et.
    + intros t I. apply Hin. apply in_or_app; auto.
    + intros t [I|[]]. apply Hout. left; auto.
    + rewrite app_length, Nat.add_assoc. apply (IH _ fm1 fm2 outs2); auto.
      * pose proof (wf_step fm o Hwf Hs1) as HWF. rewrite E1 in HWF. exact HWF.
      * rewrite HT1. exact Ho2.
      * intros Hn t Et. apply H0; [lia|].
        assert (L : report_times id [o] = []) by (apply length_zero_iff_nil; lia).
        rewrite L. exact Et.
      * intros t I. rewrite HT1. apply Hin. apply in_or_app; auto.
      * intros t I. apply Hout. right; auto.
Qed.

Lemma to_ban_single fm id t : dget id (fm_list fm) = Some t ->
  snd (to_ban fm (Some id)) = if t_retry t >=? fm_retry fm then Some t else None.
Proof. intros E. unfold to_ban. rewrite E. cbn. now destruct (t_retry t >=? fm_retry fm). Qed.

Lemma exact_in_window fm0 ops0 fm outs0 id t0 ops fm' outs :
  fresh_fm fm0 -> Forall sane_op ops0 -> fm_run fm0 ops0 = (fm, outs0) ->
  dget id (fm_list fm) = None ->
  Forall sane_op ops -> Forall (window_op id t0 (fm_time fm)) ops ->
  fm_run fm ops = (fm', outs) -> not_handed_out id outs ->
  hd_error (report_times id ops) = Some t0 ->
  (forall t, In t (report_times id ops) -> t - fm_time fm <= t0) ->
  exists t, dget id (fm_list fm') = Some t
    /\ t_retry t = Z.of_nat (length (report_times id ops))
    /\ snd (to_ban fm' (Some id))
       = if Z.of_nat (length (report_times id ops)) >=? fm_retry fm' then Some t else None.
Proof.
  intros Hf Hs0 Hr0 Hn Hs Hw Hr Hout Hhd Hin.
  destruct (run_dominated ops0 fm0 id (fm_time fm0, None) fm outs0) as [Hwf _]; auto.
  { now apply fresh_wf. }
  { destruct Hf as [Hl _]. apply dominated_gone; [cbn; now rewrite Hl | discriminate]. }
  assert (HW : windowed id t0 (0 + length (report_times id ops)) fm').
  { apply (window_run id t0 ops 0 fm fm' outs); auto. intros _ t E. congruence. }
  destruct (length (report_times id ops)) as [|n] eqn:EL.
  { apply length_zero_iff_nil in EL. rewrite EL in Hhd. discriminate. }
  destruct HW as (t & Hg & Hr1 & _). exists t. cbn [Nat.add] in Hr1.
  split; [exact Hg|]. split; [exact Hr1|]. rewrite (to_ban_single _ _ _ Hg), Hr1. reflexivity.
Qed.

(** A burst: further reports that do not advance the clock are all counted. *)
Lemma burst_step fm tk fm' n old :
  dget (t_id tk) (fm_list fm) = Some old -> (fm_maxm fm <> 0%nat -> t_matches old <> None) ->
  t_time tk <= t_time old ->
  add_failure fm tk false 1 false = (fm', n) ->
  exists new, dget (t_id tk) (fm_list fm') = Some new /\ t_retry new = t_retry old + 1
              /\ t_time new = t_time old.
Proof.
  intros Hg Hm Ht E.
  destruct (add_known_fixed fm tk false 1 old Hg Hm) as (new & Ek & Hi & _ & _).
  unfold add_failure in E. rewrite Ek in E. injection E as <- _. exists new. cbn.
  rewrite dget_dset_same. destruct Hi as (_ & H1 & H2 & _). split; [reflexivity|].
  unfold adjust_time in H2. destruct (Z.gtb_spec (t_time tk) (t_time old)); [lia|]. lia.
Qed.

(** ** C04: isolation *)
Definition concerns (id : string) (fm : failmgr) (o : fm_op) : bool :=
  match o with
  | FAdd tk _ _ => eqb (t_id tk) id
  | FAddSame i _ _ => eqb i id
  | FDel i => eqb i id
  | FToBan (Some i) => eqb i id || negb (dmem i (fm_list fm))
  | FToBan None | FCleanup _ => true
  | FSetRetry _ | FSetTime _ | FSetMatches _ => false
  end.

Lemma isolation fm o id :
  wf_fm fm -> concerns id fm o = false ->
  dget id (fm_list (fst (fm_step fm o))) = dget id (fm_list fm).
Proof.
  intros (Hd & Hk & _) HC. destruct o; cbn [concerns] in HC; cbn [fm_step]; try discriminate; try reflexivity.
  - apply eqb_neq in HC. pose proof (add_failure_other fm tk false count observed id HC).
    now destruct (add_failure fm tk false count observed).
  - apply eqb_neq in HC. destruct (dget id0 (fm_list fm)) as [tk|] eqn:E; [|reflexivity].
    destruct (Hk _ _ E) as [Hi _].
    pose proof (add_failure_other fm tk true count observed id ltac:(congruence)).
    now destruct (add_failure fm tk true count observed).
  - apply eqb_neq in HC. cbn. apply dget_ddel_other. congruence.
  - destruct id0 as [i|]; [|discriminate]. apply orb_false_elim in HC as [H1 H2].
    apply eqb_neq in H1. apply negb_false_iff in H2.
    destruct (to_ban fm (Some i)) as [fm' r] eqn:E. cbn [fst].
    destruct (to_ban_cases _ _ _ _ Hd E) as [(k&t&_&_&_&->&Hq)|(_&->)]; [|reflexivity].
    rewrite (Hq i eq_refl H2). cbn. apply dget_ddel_other. congruence.
Qed.

(** Every reachable state is well formed. *)
Lemma reachable_wf fm ops fm' outs :
  fresh_fm fm -> Forall sane_op ops -> fm_run fm ops = (fm', outs) -> wf_fm fm'.
Proof.
  intros Hf Hs Hr.
  destruct (run_dominated ops fm ""%string (fm_time fm, None) fm' outs) as [H _]; auto.
  - now apply fresh_wf.
  - destruct Hf as [Hl _]. apply dominated_gone; [cbn; now rewrite Hl | discriminate].
Qed.

(** ** performBan *)
Definition bannable (r : Z) (kv : string * ticket) : bool := t_retry (snd kv) >=? r.

Lemma ban_loop_all fuel : forall fm q,
  dwf (fm_list fm) -> (length (fm_list fm) < fuel)%nat ->
  ban_loop fuel fm None q =
  Some (with_list (filter (fun kv => negb (bannable (fm_retry fm) kv)) (fm_list fm)) fm,
        q ++ map snd (filter (bannable (fm_retry fm)) (fm_list fm))).
Proof.
  induction fuel as [|fuel IH]; intros fm q Hd HL; [lia|]. cbn [ban_loop].
  unfold to_ban. destruct (first_bannable (fm_retry fm) (fm_list fm)) as [[k t]|] eqn:E.
  - assert (H : exists pre post, fm_list fm = pre ++ (k, t) :: post
             /\ filter (bannable (fm_retry fm)) pre = [] /\ bannable (fm_retry fm) (k, t) = true).
    { clear -E. revert E. induction (fm_list fm) as [|[k1 t1] l IHl]; cbn; [discriminate|].
      destruct (t_retry t1 >=? fm_retry fm) eqn:Er.
      - intros X; injection X as -> ->. exists [], l. cbn. auto.
      - intros X. destruct (IHl X) as (pre & post & -> & H1 & H2). exists ((k1, t1) :: pre), post.
        split; [reflexivity|]. split; [|exact H2]. cbn. unfold bannable at 1. cbn. now rewrite Er. }
    destruct H as (pre & post & Hl & Hp & Hb).
    assert (Hdel : ddel k (fm_list fm) = pre ++ post).
    { assert (Hd' := Hd). unfold dwf in Hd'. rewrite Hl, dkeys_app in Hd'. cbn in Hd'.
      apply NoDup_remove_2 in Hd'. rewrite Hl.
      assert (Hnp : ~ In k (dkeys pre)) by (intros I; apply Hd'; apply in_or_app; auto).
      clear -Hnp. induction pre as [|[k1 t1] pre IHp]; cbn.
      - now rewrite eqb_refl.
      - cbn in Hnp. destruct (eqb_spec k k1); [exfalso; apply Hnp; left; congruence|]. f_equal. tauto. }
    rewrite IH.
    + cbn [fm_list with_list fm_retry]. rewrite Hdel, Hl.
      rewrite !filter_app. cbn [filter]. rewrite Hp, Hb. cbn [negb app map snd].
      rewrite <- app_assoc. reflexivity.
    + cbn. now apply dwf_ddel.
    + cbn. rewrite Hdel. rewrite Hl, app_length in HL. cbn in HL. rewrite app_length. lia.
  - rewrite first_bannable_find in E.
    assert (H : filter (bannable (fm_retry fm)) (fm_list fm) = []).
    { clear -E. revert E. unfold bannable.
      induction (fm_list fm) as [|a l IHl]; cbn; [reflexivity|].
      destruct (t_retry (snd a) >=? fm_retry fm); [discriminate | auto]. }
    rewrite (filter_none _ _ H), H. cbn. rewrite app_nil_r. f_equal. f_equal. now destruct fm.
Qed.

(** ** The total counter *)
Definition recorded (fm : failmgr) (o : fm_op) : bool :=
  match o with
  | FAdd tk _ obs => dmem (t_id tk) (fm_list fm) || negb (obs || t_isban tk)
  | FAddSame i _ _ => dmem i (fm_list fm)
  | _ => false
  end.

Definition keyed (fm : failmgr) : Prop :=
  forall k t, dget k (fm_list fm) = Some t -> fm_maxm fm <> 0%nat -> t_matches t <> None.

Lemma total_step fm o : wf_fm fm -> keyed fm ->
  fm_total (fst (fm_step fm o)) = fm_total fm + (if recorded fm o then 1 else 0).
Proof.
  intros (Hd & Hk & _) HK.
  assert (HA : forall tk same count obs,
    fm_total (fst (add_failure fm tk same count obs))
    = fm_total fm + (if dmem (t_id tk) (fm_list fm) || negb (obs || t_isban tk) then 1 else 0)).
  { intros tk same count obs. unfold add_failure, dmem.
    destruct (dget (t_id tk) (fm_list fm)) as [old|] eqn:Ho.
    - destruct (add_known_fixed fm tk same count old Ho (HK _ _ Ho)) as (new & -> & _). reflexivity.
    - assert (Ek : add_known fm tk same count = None) by (unfold add_known; now rewrite Ho).
      rewrite Ek. cbn [orb]. destruct (obs || t_isban tk); cbn; lia. }
  destruct o; cbn [fm_step recorded].
  - specialize (HA tk false count observed). now destruct (add_failure fm tk false count observed).
  - unfold dmem. destruct (dget id (fm_list fm)) as [tk|] eqn:E; [|cbn; lia].
    specialize (HA tk true count observed). destruct (Hk _ _ E) as [Hi _].
    unfold dmem in HA. rewrite Hi, E in HA. now destruct (add_failure fm tk true count observed).
  - cbn [fst]. pose proof (cleanup_other fm time) as (_ & _ & -> & _). lia.
  - cbn. lia.
  - destruct (to_ban fm id) as [fm' r] eqn:E.
    destruct (to_ban_cases _ _ _ _ Hd E) as [(k&t&_&_&_&->&_)|(_&->)]; cbn; lia.
  - cbn; lia.
  - cbn; lia.
  - cbn; lia.
Qed.

Lemma reachable_keyed fm ops fm' outs :
  fresh_fm fm -> Forall sane_op ops -> Forall fixed_matches_op ops -> fm_run fm ops = (fm', outs) ->
  keyed fm'.
Proof.
  intros Hf Hs Hx Hr k t Hg.
  destruct (run_exact ops fm k (fm_time fm, None) fm' outs) as [HM HX]; auto.
  - now apply fresh_wf.
  - destruct Hf as [Hl _]. apply exact_gone. cbn. now rewrite Hl.
  - unfold exact_entry in HX. rewrite Hg in HX. destruct (snd _); [|contradiction]. apply HX.
Qed.

(** ** The estimate outside the window *)
Lemma round_half_even_near n d : 0 < d ->
  2 * Z.abs (round_half_even n d * d - n) <= d.
Proof.
  intros Hd. unfold round_half_even. pose proof (Z.div_mod n d ltac:(lia)) as E.
  pose proof (Z.mod_pos_bound n d Hd) as B.
  destruct (Z.ltb_spec (2 * (n mod d)) d); [nia|].
  destruct (Z.ltb_spec d (2 * (n mod d))); [nia|].
  destruct (Z.even (n / d)); nia.
Qed.

Lemma known_update fm0 ops0 fm outs0 old tk count obs fm' n :
  fresh_fm fm0 -> Forall sane_op ops0 -> Forall fixed_matches_op ops0 ->
  fm_run fm0 ops0 = (fm, outs0) ->
  dget (t_id tk) (fm_list fm) = Some old ->
  add_failure fm tk false count obs = (fm', n) ->
  exists new, dget (t_id tk) (fm_list fm') = Some new /\ n = t_retry new
    /\ (if (t_time old <? t_time tk) && (t_first old + fm_time fm <? t_time tk)
        then let elapsed := t_time tk - t_first old in
             2 * Z.abs ((t_retry new - count) * elapsed - t_retry old * fm_time fm) <= elapsed
             /\ t_first new = t_time tk - fm_time fm
        else t_retry new = t_retry old + count /\ t_first new = t_first old).
Proof.
  intros Hf Hs Hx Hr Hg E.
  pose proof (reachable_wf _ _ _ _ Hf Hs Hr) as (_ & _ & Ht).
  destruct (add_known_fixed fm tk false count old Hg (reachable_keyed _ _ _ _ Hf Hs Hx Hr _ _ Hg))
    as (new & Ek & Hi & _).
  unfold add_failure in E. rewrite Ek in E. injection E as <- <-. exists new. cbn [fm_list with_list with_total].
  rewrite dget_dset_same. split; [reflexivity|]. split; [reflexivity|].
  destruct Hi as (_ & _ & H1 & H2). rewrite H1, H2. unfold adjust_time.
  destruct (Z.gtb_spec (t_time tk) (t_time old)) as [G|G].
  - destruct (Z.ltb_spec (t_time old) (t_time tk)); [|lia]. cbn [andb].
    destruct (Z.ltb_spec (t_first old) (t_time tk - fm_time fm)) as [L|L];
      destruct (Z.ltb_spec (t_first old + fm_time fm) (t_time tk)) as [L'|L']; try lia;
      cbn [t_retry t_first with_time with_first with_retry]; [|auto].
    split; [|reflexivity].
    pose proof (round_half_even_near (t_retry old * fm_time fm) (t_time tk - t_first old) ltac:(lia)) as HB.
    rewrite Z.add_simpl_r. exact HB.
  - destruct (Z.ltb_spec (t_time old) (t_time tk)); [lia|]. cbn [andb]. auto.
Qed.
