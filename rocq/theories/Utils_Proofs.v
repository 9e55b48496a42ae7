(** Lemmas about the cache and about waiting. *)
From Verif Require Import Base Utils_Model Utils_Spec.
From Coq Require Import ZifyBool ZifyNat.

Section Cache.
Context {V : Type}.

Lemma evict_suffix t m (l : dict string (V * Z)) : exists n, evict t m l = skipn n l.
Proof.
  induction l as [|[k [v e]] r IH]; cbn [evict]; [now exists 0%nat|].
  destruct (_ && _); [now exists 1%nat|]. destruct IH as [n ->]. now exists (S n).
Qed.
Lemma evict_len t m (l : dict string (V * Z)) : (evict t m l = [] \/ length (evict t m l) < m)%nat.
Proof.
  induction l as [|[k [v e]] r IH]; cbn [evict]; [now left|].
  destruct (_ && _) eqn:E; [|exact IH]. right. lia.
Qed.
Lemma dwf_skipn n (l : dict string (V * Z)) : dwf l -> dwf (skipn n l).
Proof.
  intros H. unfold dwf, dkeys in *. rewrite <- (firstn_skipn n l), map_app in H.
  revert H. generalize (map fst (firstn n l)) as a. induction a as [|x a IH]; intros H; [exact H|].
  inversion H; subst. now apply IH.
Qed.
Lemma evict_dwf t m (l : dict string (V * Z)) : dwf l -> dwf (evict t m l).
Proof. intros H. destruct (evict_suffix t m l) as [n ->]. now apply dwf_skipn. Qed.
Lemma dget_skipn n (l : dict string (V * Z)) k x : dwf l -> dget k (skipn n l) = Some x -> dget k l = Some x.
Proof.
  intros W H. apply In_dget; [exact W|]. apply dget_In in H. rewrite <- (firstn_skipn n l). apply in_or_app. now right.
Qed.

Definition ca_wf (c : cache V) : Prop := dwf (ca_list c).

Lemma ca_wf_step c o : ca_wf c -> ca_wf (ca_step c o).
Proof.
  intros W. unfold ca_wf in *. destruct o; cbn.
  - apply dwf_dset. destruct (Nat.leb _ _); [now apply evict_dwf|exact W].
  - unfold ca_get. destruct (dget k (ca_list c)) as [[v e]|]; [|exact W]. destruct (e >? t); cbn; [exact W|]. now apply dwf_ddel.
  - now apply dwf_ddel.
  - apply dwf_nil.
  - exact W.
Qed.

Lemma ttl_step (c : cache V) o : ca_ttl (ca_step c o) = match o with COptions _ ttl => ttl | _ => ca_ttl c end.
Proof.
  destruct o; cbn; try reflexivity. unfold ca_get. destruct (dget k (ca_list c)) as [[v e]|]; [|reflexivity].
  destruct (e >? t); reflexivity.
Qed.
Lemma max_step (c : cache V) o : ca_max (ca_step c o) = match o with COptions m _ => m | _ => ca_max c end.
Proof.
  destruct o; cbn; try reflexivity. unfold ca_get. destruct (dget k (ca_list c)) as [[v e]|]; [|reflexivity].
  destruct (e >? t); reflexivity.
Qed.

(** an entry is what was stored last *)
Lemma held_step (c : cache V) o k x cur : ca_wf c -> (forall y, dget k (ca_list c) = Some y -> cur = Some y) ->
  dget k (ca_list (ca_step c o)) = Some x -> stored k (ca_ttl c) [o] cur = Some x.
Proof.
  intros W H G. destruct o; cbn in *.
  - unfold ca_set in G. cbn in G. destruct (eqb_spec k k0) as [->|N].
    + rewrite dget_dset_same in G. exact G.
    + rewrite dget_dset_other in G by congruence. apply H.
      destruct (Nat.leb _ _); [|exact G]. destruct (evict_suffix t (ca_max c) (ca_list c)) as [n E]. rewrite E in G.
      now apply dget_skipn in G.
  - unfold ca_get in G. destruct (dget k0 (ca_list c)) as [[v e]|] eqn:E0.
    + destruct (Z.gtb_spec e t) as [L|L]; cbn in G.
      * rewrite (H _ G). destruct x as [v' e']. destruct (eqb_spec k k0) as [->|N]; [|reflexivity].
        rewrite E0 in G. injection G as <- <-. cbn. destruct (Z.leb_spec e t); [lia|reflexivity].
      * destruct (eqb_spec k k0) as [->|N]; [rewrite dget_ddel_same in G by exact W; discriminate|].
        rewrite dget_ddel_other in G by congruence. rewrite (H _ G). now destruct x.
    + cbn in G. rewrite (H _ G). destruct x as [v e]. destruct (eqb_spec k k0) as [->|N]; [congruence|reflexivity].
  - destruct (eqb_spec k k0) as [->|N]; [rewrite dget_ddel_same in G by exact W; discriminate|].
    rewrite dget_ddel_other in G by congruence. now apply H.
  - discriminate.
  - now apply H.
Qed.

Lemma stored_cons k ttl o ops cur : stored (V:=V) k ttl (o :: ops) cur
  = stored k (match o with COptions _ t => t | _ => ttl end) ops (stored k ttl [o] cur).
Proof. destruct o; reflexivity. Qed.

Lemma held_run k ops : forall (c : cache V) cur x, ca_wf c -> (forall y, dget k (ca_list c) = Some y -> cur = Some y) ->
  dget k (ca_list (ca_run c ops)) = Some x -> stored k (ca_ttl c) ops cur = Some x.
Proof.
  unfold ca_run. induction ops as [|o ops IH]; intros c cur x W H G; cbn [fold_left] in G.
  - cbn. now apply H.
  - rewrite stored_cons. replace (match o with COptions _ t => t | _ => ca_ttl c end) with (ca_ttl (ca_step c o)) by apply ttl_step.
    apply IH; [now apply ca_wf_step| |exact G]. intros y Gy. now apply (held_step c o k y cur).
Qed.
Lemma wf_run ops : forall c : cache V, ca_wf c -> ca_wf (ca_run c ops).
Proof. unfold ca_run. induction ops as [|o ops IH]; intros c W; cbn; auto. apply IH. now apply ca_wf_step. Qed.

(** with fewer keys than the maximal size nothing is lost *)
Lemma keys_len (ks : list string) (c : cache V) : ca_wf c -> (forall k, In k (dkeys (ca_list c)) -> In k ks) ->
  (length (ca_list c) <= length ks)%nat.
Proof. intros W H. unfold ca_wf, dwf in W. rewrite <- (map_length fst (ca_list c)). now apply NoDup_incl_length. Qed.

Lemma keys_step ks (c : cache V) o : ca_wf c -> (match o with CSet _ k _ => In k ks | _ => True end) ->
  (forall k, In k (dkeys (ca_list c)) -> In k ks) -> forall k, In k (dkeys (ca_list (ca_step c o))) -> In k ks.
Proof.
  intros W Ho H k I. apply dmem_In in I. unfold dmem in I. destruct (dget k (ca_list (ca_step c o))) as [x|] eqn:G; [|discriminate].
  assert (dget k (ca_list c) <> None -> In k ks) as H' by (intros D; apply H, dmem_In; unfold dmem; destruct (dget k (ca_list c)); congruence).
  destruct o; cbn in *.
  - destruct (eqb_spec k k0) as [->|N]; [exact Ho|]. apply H'. rewrite dget_dset_other in G by congruence.
    destruct (Nat.leb _ _); [|congruence]. destruct (evict_suffix t (ca_max c) (ca_list c)) as [n E]. rewrite E in G.
    apply dget_skipn in G; [congruence|exact W].
  - apply H'. unfold ca_get in G. destruct (dget k0 (ca_list c)) as [[v e]|] eqn:E0; [|cbn in G; congruence].
    destruct (e >? t); cbn in G; [congruence|].
    destruct (eqb_spec k k0) as [->|N]; [congruence|]. rewrite dget_ddel_other in G by congruence. congruence.
  - apply H'. destruct (eqb_spec k k0) as [->|N]; [rewrite dget_ddel_same in G by exact W; discriminate|].
    rewrite dget_ddel_other in G by congruence. congruence.
  - discriminate.
  - apply H'. congruence.
Qed.

Lemma kept_step ks (c : cache V) o k : ca_wf c -> (forall k, In k (dkeys (ca_list c)) -> In k ks) ->
  (length ks < ca_max c)%nat ->
  dget k (ca_list (ca_step c o)) = stored k (ca_ttl c) [o] (dget k (ca_list c)).
Proof.
  intros W H L. pose proof (keys_len ks c W H) as B. destruct o; cbn.
  - replace (Nat.leb (ca_max c) (length (ca_list c))) with false by (symmetry; apply Nat.leb_gt; lia).
    destruct (eqb_spec k k0) as [->|N]; [apply dget_dset_same|now apply dget_dset_other].
  - unfold ca_get. destruct (eqb_spec k k0) as [->|N]; cbn.
    + destruct (dget k0 (ca_list c)) as [[v e]|] eqn:E; [|exact E]. destruct (Z.gtb_spec e t); cbn.
      * destruct (Z.leb_spec e t); [lia|exact E].
      * destruct (Z.leb_spec e t); [|lia]. now apply dget_ddel_same.
    + destruct (dget k0 (ca_list c)) as [[v e]|] eqn:E.
      * destruct (e >? t); cbn; [|rewrite dget_ddel_other by congruence]; now destruct (dget k (ca_list c)) as [[]|].
      * cbn. now destruct (dget k (ca_list c)) as [[]|].
  - destruct (eqb_spec k k0) as [->|N]; [now apply dget_ddel_same|]. now rewrite dget_ddel_other by congruence.
  - reflexivity.
  - reflexivity.
Qed.

Lemma kept_run ks k ops : few_keys ks ops -> forall c : cache V, ca_wf c -> (forall k, In k (dkeys (ca_list c)) -> In k ks) ->
  (length ks < ca_max c)%nat -> dget k (ca_list (ca_run c ops)) = stored k (ca_ttl c) ops (dget k (ca_list c)).
Proof.
  unfold ca_run. induction 1 as [|o ops Ho _ IH]; intros c W H L; [reflexivity|]. cbn [fold_left].
  rewrite stored_cons, <- (kept_step ks) by assumption.
  replace (match o with COptions _ t => t | _ => ca_ttl c end) with (ca_ttl (ca_step c o)) by apply ttl_step.
  apply IH.
  - now apply ca_wf_step.
  - apply keys_step; [exact W| |exact H]. now destruct o.
  - rewrite max_step. now destruct o.
Qed.

(** size *)
Lemma dset_length (k : string) (x : V * Z) l : length (dset k x l) = (if dmem k l then length l else S (length l)).
Proof.
  induction l as [|[k' y] l IH]; cbn; [reflexivity|]. unfold dmem in *. cbn. destruct (eqb k k'); cbn; [reflexivity|].
  rewrite IH. destruct (dget k l); reflexivity.
Qed.
Lemma ddel_length (k : string) (l : dict string (V * Z)) : (length (ddel k l) <= length l)%nat.
Proof. induction l as [|[k' y] l IH]; cbn; [lia|]. destruct (eqb k k'); cbn; lia. Qed.

Lemma set_size (c : cache V) t k v : (1 <= ca_max c)%nat -> (length (ca_list (ca_set c t k v)) <= ca_max c)%nat.
Proof.
  intros H. unfold ca_set, ca_with_list. cbn [ca_list]. cbv zeta. rewrite dset_length.
  destruct (Nat.leb_spec (ca_max c) (length (ca_list c))).
  - destruct (evict_len t (ca_max c) (ca_list c)) as [->|L]; [cbn; lia|]. destruct (dmem k _); lia.
  - destruct (dmem k _); lia.
Qed.
Lemma size_run ops : fixed_options ops -> forall c : cache V, (1 <= ca_max c)%nat -> (length (ca_list c) <= ca_max c)%nat ->
  (length (ca_list (ca_run c ops)) <= ca_max c)%nat.
Proof.
  unfold ca_run. induction 1 as [|o ops Ho _ IH]; intros c H L; cbn [fold_left]; [exact L|].
  assert (E : ca_max (ca_step c o) = ca_max c) by (rewrite max_step; destruct o; [reflexivity..|contradiction]).
  rewrite <- E. apply IH; rewrite E; [exact H|]. destruct o; cbn.
  - now apply set_size.
  - unfold ca_get. destruct (dget k (ca_list c)) as [[v e]|]; [|exact L]. destruct (e >? t); cbn; [exact L|].
    pose proof (ddel_length k (ca_list c)). lia.
  - pose proof (ddel_length k (ca_list c)). lia.
  - lia.
  - exact L.
Qed.

(** what is evicted from a cache that is exactly full *)
Lemma evict_exact t m (l : dict string (V * Z)) : (length l <= m)%nat -> (1 <= m)%nat ->
  exists dead, Forall (fun kv => live t kv = false) dead /\
    ((evict t m l = [] /\ l = dead) \/ exists x, live t x = true /\ l = dead ++ x :: evict t m l).
Proof.
  intros L H. induction l as [|[k [v e]] r IH]; cbn [evict].
  - exists []. split; [constructor|]. now left.
  - cbn in L. rewrite Z.gtb_ltb. destruct (Z.ltb_spec t e); cbn [andb].
    + replace (Nat.ltb (length r) m) with true by (symmetry; apply Nat.ltb_lt; lia).
      exists []. split; [constructor|]. right. exists (k, (v, e)). split; [unfold live; cbn; lia|reflexivity].
    + destruct IH as (dead & F & C); [lia|]. exists ((k, (v, e)) :: dead). split.
      * constructor; [unfold live; cbn; lia|exact F].
      * destruct C as [[-> ->]|(x & Hx & E)]; [left; auto|right]. exists x. split; [exact Hx|]. cbn. now rewrite <- E.
Qed.
End Cache.

(** ** wait_for *)

Lemma next_sleep_eq interval i : 0 <= the_step interval ->
  next_sleep interval (Z.min (Z.of_nat i * the_step interval) 2000) = Z.min (Z.of_nat (S i) * the_step interval) 2000.
Proof.
  intros H. unfold next_sleep, DEFAULT_SLEEP_TIME, DEFAULT_SLEEP_INTERVAL. fold (the_step interval). nia.
Qed.

Lemma wait_spec cond late interval n : 0 <= the_step interval -> first_stop cond late n -> forall fuel, (n < fuel)%nat ->
  wait_for fuel cond late interval 0 0
  = Some (cond n, S n, map (fun i => Z.min (Z.of_nat (S i) * the_step interval) 2000) (seq 0 n)).
Proof.
  intros Hs [H1 H2].
  assert (G : forall d i fuel, (i + d = n)%nat -> (d < fuel)%nat ->
    wait_for fuel cond late interval i (Z.min (Z.of_nat i * the_step interval) 2000)
    = Some (cond n, S n, map (fun i => Z.min (Z.of_nat (S i) * the_step interval) 2000) (seq i d))).
  { induction d as [|d IH]; intros i fuel E L; (destruct fuel as [|fuel]; [lia|]); cbn [wait_for seq map].
    - assert (i = n) by lia. subst i. destruct (cond n) eqn:C; [reflexivity|]. cbn in H1. rewrite H1. reflexivity.
    - pose proof (H2 i ltac:(lia)) as X. apply orb_false_iff in X as [-> ->].
      rewrite next_sleep_eq by exact Hs. rewrite IH by lia. reflexivity. }
  intros fuel L. specialize (G n 0%nat fuel eq_refl L). cbn [Z.of_nat] in G.
  rewrite Z.mul_0_l, Z.min_l in G by lia. exact G.
Qed.

Lemma wait_sound cond late interval : forall fuel i stm r n sl,
  wait_for fuel cond late interval i stm = Some (r, n, sl) ->
  exists m, n = S m /\ (i <= m)%nat /\ r = cond m /\ cond m || late m = true
    /\ (forall j, (i <= j < m)%nat -> cond j || late j = false) /\ length sl = (m - i)%nat.
Proof.
  induction fuel as [|f IH]; intros i stm r n sl E; cbn [wait_for] in E; [discriminate|].
  destruct (cond i) eqn:C.
  - injection E as <- <- <-. exists i. rewrite C. repeat split; try lia. cbn. lia.
  - destruct (late i) eqn:L.
    + injection E as <- <- <-. exists i. rewrite C, L. repeat split; try lia. cbn. lia.
    + destruct (wait_for f cond late interval (S i) (next_sleep interval stm)) as [[[r' n'] sl']|] eqn:E'; [|discriminate].
      injection E as <- <- <-. destruct (IH _ _ _ _ _ E') as (m & -> & Hm & -> & Hs & Hn & Hl). exists m.
      repeat split; auto; try lia.
      * intros j Hj. destruct (Nat.eq_dec j i) as [->|]; [now rewrite C, L | apply Hn; lia].
      * cbn. lia.
Qed.

(** with a clock that passes at least the slept time the wait ends *)
Lemma first_ex (p : nat -> bool) n : p n = true -> exists m, (m <= n)%nat /\ p m = true /\ forall i, (i < m)%nat -> p i = false.
Proof.
  induction n as [n IH] using lt_wf_ind. intros H.
  destruct (existsb p (seq 0 n)) eqn:E.
  - apply existsb_exists in E as (j & I & Hj). apply in_seq in I. destruct (IH j) as (m & Hm & X); [lia|exact Hj|].
    exists m. split; [lia|exact X].
  - exists n. split; [lia|]. split; [exact H|]. intros i Hi.
    destruct (p i) eqn:Hp; [|reflexivity]. assert (existsb p (seq 0 n) = true); [|congruence].
    apply existsb_exists. exists i. split; [apply in_seq; lia|exact Hp].
Qed.

Lemma clock_grows interval (clock : nat -> Z) : 0 < the_step interval ->
  (forall i, clock i + Z.min (Z.of_nat (S i) * the_step interval) 2000 <= clock (S i)) ->
  forall n, clock 0%nat + Z.of_nat n * Z.min (the_step interval) 2000 <= clock n.
Proof.
  intros Hs H. induction n as [|n IH]; [lia|]. specialize (H n).
  assert (Z.min (the_step interval) 2000 <= Z.min (Z.of_nat (S n) * the_step interval) 2000) by nia. lia.
Qed.
