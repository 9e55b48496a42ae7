(** Histories of a detector: what holds after any of them. *)
From Coq Require Import QArith Permutation ZifyBool ZifyNat.
From Verif Require Import Base Text DateDetector_Model DateDetector_Spec DateDetector_Proofs DateDetector_Proofs2 DateDetector_Proofs3
  DateDetector_Proofs4.
Local Open Scope nat_scope.

Lemma promoted_perm bef aft t a now front passed e : promoted bef aft t a now front passed e ->
  Permutation (map d_t bef) (map d_t aft).
Proof.
  intros [rest -> _ ->]. rewrite !map_app. cbn [map]. rewrite !map_app. apply Permutation_app_head.
  cbn [hit d_t map]. apply Permutation_sym, Permutation_middle.
Qed.
Lemma tname_d_t l : map tname l = map t_name (map d_t l).
Proof. rewrite map_map. reflexivity. Qed.
Lemma perm_names x y : Permutation (map d_t x) (map d_t y) -> Permutation (map tname x) (map tname y).
Proof. intros H. rewrite !tname_d_t. now apply Permutation_map. Qed.
Lemma promoted_hits bef aft t a now front passed e : promoted bef aft t a now front passed e ->
  Forall (fun e => 0 <= d_hits e)%Z bef -> Forall (fun e => 0 <= d_hits e)%Z aft.
Proof.
  intros [rest -> _ ->] H. rewrite !Forall_app in *. rewrite Forall_cons_iff in *. rewrite Forall_app. cbn [hit d_hits].
  destruct H as (H1 & H2 & H3 & H4). repeat split; auto. lia.
Qed.

Section Search.
Context (search : template -> text -> option (nat * nat) -> option (nat * nat)) (defaults : list template).

Lemma inv_shared m s sh : inv m s -> (forall n, (hits_of (shared s) n <= hits_of sh n)%Z) ->
  inv m (mkS (ts s) (names s) (last_seen s) (unused s) sh).
Proof.
  intros [I1 I2 I3 I4 I5] H. split; auto; cbn [shared].
  - unfold remembers in *. cbn [last_seen ts shared]. destruct (last_seen s) as [n|], m as [[[[L t] a] b]|]; auto.
    destruct I3 as (e & ? & ? & ? & Hs & R). exists e. do 3 (split; [auto|]). split; [|exact R]. specialize (H (t_name t)). lia.
  - intros n. specialize (I4 n). specialize (H n). lia.
Qed.

(** A line *)
Lemma match_time_spec m s line now s' ans : inv m s -> match_time search s defaults line now = (s', ans) ->
  inv (last_found m [Line line now] [ans]) s' /\
  exists s1 ok, ready defaults s = (s1, ok) /\ inv m s1 /\
  match ans with
  | Found t a b => ok = true /\ chosen search (ts s1) m (shared s1) line t a b /\ a < length line /\ last_char line b <> None /\
      exists front passed e, promoted (ts s1) (ts s') t a now front passed e /\
        (let u := if unused s1 =? length (front ++ passed) then S (unused s1) else unused s1 in
         why u front passed (hit now a e) /\ unused s' = match passed with [] => u | _ => advance u (ts s') end) /\
        (front = [] /\ passed = [] \/ (exists L a0 b0, m = Some (L, t, a0, b0)) -> passed = []) /\
        (passed <> [] \/ unused s1 < length front -> (forall L a0 b0, m <> Some (L, t, a0, b0)) -> unused s1 < length (front ++ passed) ->
         forall p, nth_error (front ++ passed) (unused s1) = Some p -> heavier (hit now a e) p = true -> length front = unused s1)
  | IndexErr => ok = true /\ exists t a b, chosen search (ts s1) m (shared s1) line t a b /\
      (length line <= a \/ last_char line b = None) /\ exists front e, promoted (ts s1) (ts s') t a now front [] e
  | Nothing => ok = true /\ ts s' = ts s1 /\ unused s' = unused s1 /\ retry search m line = None /\
      forall i e a b, ~ says search (ts s1) m line i e a b
  | DupErr => ok = false /\ s' = s1
  | Done => False
  end.
Proof.
  intros I. rewrite match_time_ready. destruct (ready defaults s) as [s1 ok] eqn:Rd. pose proof (ready_inv _ _ _ _ _ I Rd) as I1.
  destruct ok.
  2: { intros H. injection H as <- <-. cbn [last_found]. split; [exact I1|]. exists s1, false. auto. }
  destruct (pick search s1 line) as [w sh] eqn:P. destruct (pick_spec _ _ _ _ _ _ I1 P) as [Mo W].
  destruct w as [[[a b] i]|].
  - destruct W as (e & He & Ch & Hh).
    destruct (char_at line a) as [c|] eqn:Ec; [destruct (last_char line b) as [c2|] eqn:Ec2|].
    + destruct (settle_found m s1 sh line now a b i e c c2 I1 He Ec Ec2) as
        (s2 & front & passed & j & St & Pr & Nm & Sh & Ls & Ej & Ei & Wu & Keep & Jump).
      rewrite St. intros H. injection H as <- <-.
      assert (I2 : inv (Some (line, d_t e, a, b)) s2).
      { split.
        - eapply Permutation_NoDup; [apply perm_names, (promoted_perm _ _ _ _ _ _ _ _ Pr)|apply (i_nodup _ _ I1)].
        - intros n. rewrite Nm, (i_names _ _ I1). split; apply Permutation_in; [|apply Permutation_sym];
            apply perm_names, (promoted_perm _ _ _ _ _ _ _ _ Pr).
        - unfold remembers. rewrite Ls. exists (hit now a e). cbn [n_idx n_pos n_end n_before n_at n_last n_after hit d_t d_hits].
          destruct Pr as [rest E1 E2 E3]. split. { rewrite Ej, E3. apply nth_error_mid. }
          split; auto. split. { pose proof (i_hits _ _ I1) as Hp. rewrite Forall_forall in Hp. specialize (Hp e (nth_error_In _ _ He)). lia. }
          rewrite Sh. split; [exact Hh|]. auto 10.
        - intros n. rewrite Sh. pose proof (i_shared _ _ I1 n). specialize (Mo n). lia.
        - apply (promoted_hits _ _ _ _ _ _ _ _ Pr), (i_hits _ _ I1). }
      split; [exact I2|]. exists s1, true. split; [reflexivity|]. split; [exact I1|]. split; [reflexivity|]. split; [exact Ch|].
      split; [apply nth_error_Some; unfold char_at in Ec; congruence|]. split; [congruence|]. exists front, passed, e. split; [exact Pr|].
      rewrite <- Ei. split; [exact Wu|].
      pose proof (i_seen _ _ I1) as R. unfold remembers in R. split.
      * intros [[_ ->]|(L & a0 & b0 & Em)]; auto. apply Keep. right.
        rewrite Em in R. destruct (last_seen s1) as [n|]; [|contradiction].
        destruct R as (e1 & He1 & Ht1 & _). exists n. split; auto.
        eapply (nodup_same (ts s1)); [apply (i_nodup _ _ I1)|eauto|eauto|]. unfold tname. congruence.
      * intros Hne Hm. apply Jump.
        -- intros E0. rewrite E0 in Ei. destruct front, passed; try discriminate. cbn in Hne. destruct Hne; [congruence|lia].
        -- intros n En Q. rewrite En in R. destruct m as [[[[L t] a0] b0]|]; [|contradiction].
           destruct R as (e1 & He1 & Ht1 & _). rewrite Q, He in He1. injection He1 as <-. rewrite <- Ht1 in Hm. eapply Hm; reflexivity.
    + destruct (settle_error s1 sh line now a b i e He (or_intror Ec2)) as (front & rest & St & E). rewrite St.
      intros H. injection H as <- <-. cbn [last_found].
      assert (Pr : promoted (ts s1) (front ++ hit now a e :: rest) (d_t e) a now front [] e) by (econstructor; eauto).
      split.
      * destruct I1 as [J1 J2 J3 J4 J5]. split; cbn [ts names shared].
        -- eapply Permutation_NoDup; [apply perm_names, (promoted_perm _ _ _ _ _ _ _ _ Pr)|auto].
        -- intros n. rewrite J2. split; apply Permutation_in; [|apply Permutation_sym]; apply perm_names, (promoted_perm _ _ _ _ _ _ _ _ Pr).
        -- unfold remembers in *. cbn [last_seen ts shared]. destruct (last_seen s1) as [n|], m as [[[[L t] a0] b0]|]; auto.
           destruct J3 as (e1 & He1 & Ht & Hp & Hs & R). specialize (Mo (t_name t)).
           rewrite E in He1. destruct (Nat.eq_dec (n_idx n) (length front)) as [Q|Q].
           ++ rewrite Q, nth_error_mid in He1. injection He1 as <-. exists (hit now a e). rewrite Q. split; [apply nth_error_mid|].
              split; [exact Ht|]. split; [cbn; lia|]. split; [lia|exact R].
           ++ exists e1. split.
              { destruct (Nat.lt_ge_cases (n_idx n) (length front)) as [G|G].
                - rewrite nth_error_app1 in He1 |- * by auto. exact He1.
                - rewrite nth_error_app2 in He1 |- * by lia. destruct (n_idx n - length front) eqn:D; [lia|]. exact He1. }
              split; [exact Ht|]. split; [exact Hp|]. split; [lia|exact R].
        -- intros n. specialize (J4 n). specialize (Mo n). lia.
        -- apply (promoted_hits _ _ _ _ _ _ _ _ Pr), J5.
      * exists s1, true. split; [reflexivity|]. split; [exact I1|]. split; [reflexivity|]. exists (d_t e), a, b.
        split; [exact Ch|]. split; [auto|]. exists front, e. exact Pr.
    + destruct (settle_error s1 sh line now a b i e He (or_introl Ec)) as (front & rest & St & E). rewrite St.
      intros H. injection H as <- <-. cbn [last_found].
      assert (Pr : promoted (ts s1) (front ++ hit now a e :: rest) (d_t e) a now front [] e) by (econstructor; eauto).
      split.
      * destruct I1 as [J1 J2 J3 J4 J5]. split; cbn [ts names shared].
        -- eapply Permutation_NoDup; [apply perm_names, (promoted_perm _ _ _ _ _ _ _ _ Pr)|auto].
        -- intros n. rewrite J2. split; apply Permutation_in; [|apply Permutation_sym]; apply perm_names, (promoted_perm _ _ _ _ _ _ _ _ Pr).
        -- unfold remembers in *. cbn [last_seen ts shared]. destruct (last_seen s1) as [n|], m as [[[[L t] a0] b0]|]; auto.
           destruct J3 as (e1 & He1 & Ht & Hp & Hs & R). specialize (Mo (t_name t)).
           rewrite E in He1. destruct (Nat.eq_dec (n_idx n) (length front)) as [Q|Q].
           ++ rewrite Q, nth_error_mid in He1. injection He1 as <-. exists (hit now a e). rewrite Q. split; [apply nth_error_mid|].
              split; [exact Ht|]. split; [cbn; lia|]. split; [lia|exact R].
           ++ exists e1. split.
              { destruct (Nat.lt_ge_cases (n_idx n) (length front)) as [G|G].
                - rewrite nth_error_app1 in He1 |- * by auto. exact He1.
                - rewrite nth_error_app2 in He1 |- * by lia. destruct (n_idx n - length front) eqn:D; [lia|]. exact He1. }
              split; [exact Ht|]. split; [exact Hp|]. split; [lia|exact R].
        -- intros n. specialize (J4 n). specialize (Mo n). lia.
        -- apply (promoted_hits _ _ _ _ _ _ _ _ Pr), J5.
      * exists s1, true. split; [reflexivity|]. split; [exact I1|]. split; [reflexivity|]. exists (d_t e), a, b.
        split; [exact Ch|]. split; [left; apply nth_error_None; exact Ec|]. exists front, e. exact Pr.
  - intros H. injection H as <- <-. cbn [last_found]. split; [now apply inv_shared|]. exists s1, true. destruct W as [W1 W2].
    cbn [ts unused]. auto 10.
Qed.

Lemma step_inv m s o s' ans : inv m s -> step search defaults s o = (s', ans) -> inv (last_found m [o] [ans]) s'.
Proof.
  intros I. destruct o as [t|l|line now|n]; cbn [step].
  - rewrite (append_t_spec m) by auto. destruct (inb (t_name t) (map tname (ts s))) eqn:E; intros H; injection H as <- <-; cbn [last_found]; auto.
    apply inb_false in E. now apply append_inv.
  - unfold add_default. destruct (append_all s l (negb (length (ts s) =? 0))) as [s1 ok] eqn:E. intros H. injection H as <- <-.
    cbn [last_found]. eapply append_all_inv; eauto.
  - intros H. now destruct (match_time_spec _ _ _ _ _ _ I H).
  - intros H. injection H as <- <-. cbn [last_found]. apply inv_shared; auto. intros k. rewrite hits_of_dset. destruct (eqb k n) eqn:E; [|lia].
    apply eqb_true in E as ->. lia.
Qed.
Lemma last_found_cons m o a ops ans : last_found m (o :: ops) (a :: ans) = last_found (last_found m [o] [a]) ops ans.
Proof. destruct o, a; reflexivity. Qed.
Lemma run_inv ops : forall m s s' ans, inv m s -> run search defaults s ops = (s', ans) -> inv (last_found m ops ans) s'.
Proof.
  induction ops as [|o ops IH]; intros m s s' ans I; cbn [run]. { intros H. injection H as <- <-. exact I. }
  destruct (step search defaults s o) as [s1 a] eqn:S1. destruct (run search defaults s1 ops) as [s2 l] eqn:R.
  intros H. injection H as <- <-. rewrite last_found_cons. eapply IH; [|exact R]. eapply step_inv; eauto.
Qed.
Lemma init_inv sh : (forall n, (0 <= hits_of sh n)%Z) -> inv None (init sh).
Proof. intros H. split; cbn; auto; [constructor|tauto]. Qed.

(** ** The used templates stand first *)
Record uinv (s : state) : Prop := {
  u_le : exists u v, ts s = u ++ v /\ length u = unused s /\ Forall (fun e => 0 < d_hits e)%Z u /\ Forall (fun e => d_hits e = 0%Z) v;
  u_weight : Forall (fun e => 0 < t_weight (d_t e))%Z (ts s) }.

Lemma used_prefix_spec u v : Forall (fun e => 0 < d_hits e)%Z u -> Forall (fun e => d_hits e = 0%Z) v -> used_prefix (u ++ v) = length u.
Proof.
  induction 1 as [|e u He Hu IH]; intros Hv; cbn [app used_prefix length].
  - destruct v as [|e v]; auto. inversion Hv as [|x y Q _]; subst. cbn. now rewrite Q.
  - rewrite IH by auto. destruct (d_hits e =? 0)%Z eqn:E; auto. lia.
Qed.
Lemma advance_spec k u v : Forall (fun e => 0 < d_hits e)%Z u -> Forall (fun e => d_hits e = 0%Z) v -> k <= length u -> advance k (u ++ v) = length u.
Proof.
  intros Hu Hv L. unfold advance. rewrite skipn_app. replace (k - length u) with 0 by lia. cbn [skipn].
  rewrite used_prefix_spec; auto. { rewrite skipn_length. lia. }
  rewrite <- (firstn_skipn k u) in Hu. now apply Forall_app in Hu.
Qed.

Lemma uinv_append s x nm : uinv s -> Forall (fun t => 0 < t_weight t)%Z x ->
  uinv (mkS (ts s ++ map fresh x) nm (last_seen s) (unused s) (shared s)).
Proof.
  intros [(u & v & E & L & Hu & Hv) W] Hx. split; cbn [ts unused].
  - exists u, (v ++ map fresh x). rewrite E, app_assoc. repeat (split; [solve [auto]|]). apply Forall_app. split; auto.
    apply Forall_forall. intros e He. apply in_map_iff in He as (t & <- & _). reflexivity.
  - apply Forall_app. split; auto. apply Forall_forall. intros e He. apply in_map_iff in He as (t & <- & Ht).
    rewrite Forall_forall in Hx. cbn. auto.
Qed.
Lemma uinv_same s s' x : uinv s -> ts s' = ts s ++ map fresh x -> unused s' = unused s -> Forall (fun t => 0 < t_weight t)%Z x -> uinv s'.
Proof.
  intros I E U Hx. pose proof (uinv_append s x (names s) I Hx) as [J1 J2]. cbn [ts unused] in *.
  split; [|now rewrite E]. rewrite E, U. exact J1.
Qed.

Lemma split_left {A} (u v f : list A) e r : u ++ v = f ++ e :: r -> length f < length u -> exists u2, u = f ++ e :: u2 /\ r = u2 ++ v.
Proof.
  revert f; induction u as [|x u IH]; intros [|y f] H L; cbn in *; try lia.
  - injection H as -> H. eauto.
  - injection H as -> H. destruct (IH f H) as (u2 & -> & ->); [lia|]. eauto.
Qed.
Lemma split_right {A} (u v f : list A) e r : u ++ v = f ++ e :: r -> length u < length f -> exists p v1, f = u ++ p :: v1 /\ v = p :: v1 ++ e :: r.
Proof.
  revert f; induction u as [|x u IH]; intros [|y f] H L; cbn in *; try lia.
  - exists y, f. auto.
  - injection H as -> H. destruct (IH f H) as (p & v1 & -> & ->); [lia|]. eauto.
Qed.
Lemma list_eq_nil {A} (l : list A) : {l = []} + {l <> []}.
Proof. destruct l; [left|right]; congruence. Qed.
Lemma promoted_weights bef aft t a now front passed e : promoted bef aft t a now front passed e ->
  Forall (fun e => 0 < t_weight (d_t e))%Z bef -> Forall (fun e => 0 < t_weight (d_t e))%Z aft.
Proof.
  intros [rest -> _ ->] H. rewrite !Forall_app in *. rewrite Forall_cons_iff in *. rewrite Forall_app. cbn [hit d_t]. tauto.
Qed.

Lemma match_time_uinv m s line now s' ans : inv m s -> uinv s -> Forall (fun t => 0 < t_weight t)%Z defaults ->
  match_time search s defaults line now = (s', ans) -> ans <> IndexErr -> uinv s'.
Proof.
  intros I U D H NI.
  destruct (match_time_spec _ _ _ _ _ _ I H) as (_ & s1 & ok & Rd & I1 & K).
  assert (U1 : uinv s1).
  { destruct (ready_same _ _ _ _ Rd) as (x & E & Inc & _ & Eu & _). apply (uinv_same s s1 x); auto.
    apply Forall_forall. intros t Ht. rewrite Forall_forall in D. auto. }
  destruct ans as [t a b| | | |]; try contradiction.
  - destruct K as (_ & _ & _ & _ & front & passed & e & Pr & Wu & Keep & Jump). cbv zeta in Wu.
    split; [|apply (promoted_weights _ _ _ _ _ _ _ _ Pr), (u_weight _ U1)].
    destruct U1 as [(u & v & E & Lu & Hu & Hv) Hw]. destruct Pr as [rest E1 Et E2].
    assert (H0 : (0 <= d_hits e)%Z).
    { pose proof (i_hits _ _ I1) as Hp. rewrite Forall_forall in Hp. apply Hp. rewrite E1, !in_app_iff. cbn; auto. }
    assert (Hh : (0 < d_hits (hit now a e))%Z) by (cbn; lia).
    assert (Split : u ++ v = (front ++ passed) ++ e :: rest) by (rewrite <- E, E1, app_assoc; reflexivity).
    assert (Np : length (front ++ passed) = length front + length passed) by apply app_length.
    rewrite <- Lu in Wu. destruct Wu as [Wy Wu].
    destruct (lt_eq_lt_dec (length (front ++ passed)) (length u)) as [[Lt|Eq]|Gt].
    + (* a used template: moved among them *)
      destruct (split_left _ _ _ _ _ Split Lt) as (u2 & Eu & Er).
      replace (length u =? length (front ++ passed)) with false in * by lia.
      assert (F : Forall (fun e => 0 < d_hits e)%Z (front ++ hit now a e :: passed ++ u2)).
      { rewrite Eu in Hu. rewrite !Forall_app, Forall_cons_iff in *. rewrite Forall_app. tauto. }
      assert (Len : length (front ++ hit now a e :: passed ++ u2) = length u).
      { rewrite Eu, !app_length. cbn [length]. rewrite app_length. lia. }
      exists (front ++ hit now a e :: passed ++ u2), v. assert (E3 : ts s' = (front ++ hit now a e :: passed ++ u2) ++ v).
      { rewrite E2, Er, <- !app_assoc. cbn. now rewrite <- !app_assoc. }
      split; [exact E3|]. split; [|auto]. rewrite Wu. destruct passed; auto. rewrite E3, advance_spec; auto; lia.
    + (* the first unused one *)
      apply app_inv_length in Split as [Eu Ev]; [|lia]. replace (length u =? length (front ++ passed)) with true in * by lia.
      assert (F : Forall (fun e => 0 < d_hits e)%Z (front ++ hit now a e :: passed)).
      { rewrite Eu in Hu. rewrite !Forall_app, Forall_cons_iff in *. tauto. }
      assert (Len : length (front ++ hit now a e :: passed) = S (length u)).
      { rewrite Eu, !app_length. cbn [length]. lia. }
      rewrite Ev in Hv. inversion Hv as [|x y He Hr]; subst x y.
      exists (front ++ hit now a e :: passed), rest. assert (E3 : ts s' = (front ++ hit now a e :: passed) ++ rest).
      { rewrite E2, <- !app_assoc. reflexivity. }
      split; [exact E3|]. split; [|auto]. rewrite Wu. destruct passed; auto. rewrite E3, advance_spec; auto; lia.
    + (* another unused one: moved behind the used ones *)
      replace (length u =? length (front ++ passed)) with false in * by lia.
      destruct (split_right _ _ _ _ _ Split Gt) as (p & v1 & Ef & Ev).
      rewrite Ev in Hv. rewrite Forall_cons_iff, Forall_app, Forall_cons_iff in Hv. destruct Hv as (Hp & Hv1 & He & Hrest).
      assert (Hn : nth_error (front ++ passed) (unused s1) = Some p) by (rewrite Ef, <- Lu; apply nth_error_mid).
      assert (Wt : heavier (hit now a e) p = true).
      { apply heavier_spec. unfold weight. rewrite Hp. cbn [hit d_hits d_t d_dist]. rewrite He.
        rewrite Forall_forall in Hw. assert (Hx : (0 < t_weight (d_t e))%Z) by (apply Hw; rewrite E1, !in_app_iff; cbn; auto).
        assert (Hd : (0 < Z.max 1 (Z.of_nat a))%Z) by lia. unfold Qdiv. rewrite Z.mul_0_l, Qmult_0_l.
        apply Qmult_lt_0_compat. { unfold Qlt, inject_Z; cbn [Qnum Qden]; change (0 + 1)%Z with 1%Z; lia. }
        apply Qinv_lt_0_compat. unfold Qlt, inject_Z; cbn [Qnum Qden]. lia. }
      assert (Nm : forall L a0 b0, m <> Some (L, t, a0, b0)).
      { intros L a0 b0 Em. pose proof (i_seen _ _ I1) as R. unfold remembers in R. rewrite Em in R.
        destruct (last_seen s1) as [n|]; [|contradiction]. destruct R as (e1 & He1 & Ht1 & Hh1 & _).
        assert (Hx : nth_error (ts s1) (length (front ++ passed)) = Some e) by (rewrite E1, app_assoc; apply nth_error_mid).
        destruct (nodup_same (ts s1) _ _ _ _ (i_nodup _ _ I1) He1 Hx) as [_ ->]; [unfold tname; congruence|lia]. }
      assert (J : length front = unused s1).
      { destruct (list_eq_nil passed) as [Ep|Ep].
        - subst passed. rewrite app_nil_r in *. apply Jump with p; auto; lia.
        - apply Jump with p; auto; lia. }
      rewrite <- J in Lu. apply app_inv_length in Ef as [Ef Epv]; [|exact (eq_sym Lu)]. subst front.
      exists (u ++ [hit now a e]), (passed ++ rest). assert (E3 : ts s' = (u ++ [hit now a e]) ++ passed ++ rest).
      { rewrite E2, <- !app_assoc. reflexivity. }
      split; [exact E3|]. rewrite Epv. split; [|split].
      * rewrite Epv in Wu. rewrite Wu. rewrite E3, Epv, advance_spec; rewrite ?app_length; cbn [length]; auto; try lia.
        -- apply Forall_app; auto.
        -- cbn [app]. rewrite Forall_cons_iff, Forall_app. auto.
      * apply Forall_app; auto.
      * cbn [app]. rewrite Forall_cons_iff, Forall_app. auto.
  - destruct K as (_ & E & Eu & _). apply (uinv_same s1 s' []); auto. now rewrite app_nil_r.
  - destruct K as [_ ->]. exact U1.
Qed.
End Search.
