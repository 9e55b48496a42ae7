(** What matchTime does: the winner, and the list of templates afterwards. *)
From Coq Require Import QArith Permutation ZifyBool ZifyNat.
From Verif Require Import Base Text DateDetector_Model DateDetector_Spec DateDetector_Proofs DateDetector_Proofs2.
Local Open Scope nat_scope.

Definition tname (e : entry) : string := t_name (d_t e).

Section Search.
Context (search : template -> text -> option (nat * nat) -> option (nat * nat)).

(** The place that is remembered is that of the last date *)
Definition remembers (s : state) (m : memory) : Prop :=
  match last_seen s, m with
  | None, None => True
  | Some n, Some (L, t, a, b) =>
      exists e, nth_error (ts s) (n_idx n) = Some e /\ d_t e = t /\ (0 < d_hits e)%Z /\ (0 < hits_of (shared s) (t_name t))%Z /\
        n_pos n = a /\ n_end n = b /\ n_before n = before L a /\ nth_error L a = Some (n_at n) /\
        last_char L b = Some (n_last n) /\ n_after n = sub1 L b
  | _, _ => False
  end.
Record inv (m : memory) (s : state) : Prop := {
  i_nodup : NoDup (map tname (ts s));
  i_names : forall n, In n (names s) <-> In n (map tname (ts s));
  i_seen : remembers s m;
  i_shared : forall n, (0 <= hits_of (shared s) n)%Z;
  i_hits : Forall (fun e => 0 <= d_hits e)%Z (ts s) }.

Lemma eqb_single (c d : ascii) : eqb [c] [d] = eqb c d.
Proof.
  destruct (eqb c d) eqn:E. { apply eqb_true in E as ->. apply eqb_refl. }
  destruct (eqb [c] [d]) eqn:E2; auto. apply eqb_true in E2. injection E2 as ->. now rewrite eqb_refl in E.
Qed.
Lemma same_bounds_spec L line n a b :
  n_pos n = a -> n_end n = b -> n_before n = before L a -> nth_error L a = Some (n_at n) ->
  last_char L b = Some (n_last n) -> n_after n = sub1 L b ->
  same_bounds line n = same_place L line a b.
Proof.
  intros Hp He Hb Ha Hl Haf. unfold same_bounds, same_place. rewrite Hp, He. rewrite !behind_before, !at1_sub1, Hb, Haf.
  f_equal; f_equal.
  - unfold sub1. rewrite Ha. destruct (nth_error line a) as [c|]; cbn [same_sign]; [|reflexivity].
    rewrite eqb_single, isalnum_spec. destruct (eqb c (n_at n)) eqn:E; auto. now apply eqb_true in E as ->.
  - destruct b as [|b]; cbn [before same_sign]; [reflexivity|]. cbn [last_char] in Hl. unfold sub1. rewrite Hl.
    destruct (nth_error line b) as [c|]; cbn [same_sign]; [|reflexivity].
    rewrite eqb_single, isalnum_spec. destruct (eqb c (n_last n)) eqn:E; auto. now apply eqb_true in E as ->.
Qed.

Lemma nodup_same (l : list entry) i j e e' : NoDup (map tname l) -> nth_error l i = Some e -> nth_error l j = Some e' ->
  tname e = tname e' -> i = j /\ e = e'.
Proof.
  intros ND Hi Hj Hn. assert (i = j).
  { apply (proj1 (NoDup_nth_error (map tname l)) ND). { rewrite map_length. apply nth_error_Some. congruence. }
    rewrite !nth_error_map, Hi, Hj. cbn. now f_equal. }
  subst. split; congruence.
Qed.

(** The template of the last date *)
Lemma try_last_spec m s line w res skip sh : inv m s -> try_last search s line = (w, res, skip, sh) ->
  (forall n, (hits_of (shared s) n <= hits_of sh n)%Z) /\
  (forall n, (hits_of (shared s) n = 0 -> hits_of sh n = 0)%Z) /\
  (skip = None \/ asked_whole m line = true) /\
  (asked_whole m line = true -> exists L t a b i e, m = Some (L, t, a, b) /\ skip = Some i /\ nth_error (ts s) i = Some e /\ d_t e = t) /\
  match w, res with
  | Some (a, b, i), _ => exists e, nth_error (ts s) i = Some e /\ kept search (length (ts s)) m line (d_t e) a b /\
      (exists n, last_seen s = Some n /\ n_idx n = i)
  | None, Some (a, b, i) => exists e, nth_error (ts s) i = Some e /\ reserved search (length (ts s)) m line (d_t e) a b
  | None, None => retry search m line = None
  end.
Proof.
  intros I. unfold try_last. pose proof (i_seen _ _ I) as R. pose proof (i_shared _ _ I) as Sh. unfold remembers in R.
  destruct (last_seen s) as [n|], m as [[[[L t] a0] b0]|]; try contradiction.
  2: { intros [= <- <- <- <-]. repeat (split; [solve [auto; lia]|]). split; [discriminate|reflexivity]. }
  destruct R as (e & He & Ht & Hh & Hs & Ha & Hb & Hb1 & Ha1 & Hl & Haf). rewrite He. cbv zeta.
  assert (W : anchored (d_t e) || negb (same_bounds line n) = asked_whole (Some (L, t, a0, b0)) line).
  { unfold asked_whole, anchored. rewrite (same_bounds_spec L line n a0 b0) by auto. now rewrite Ht. }
  rewrite W. destruct (match_date search (shared s) (d_t e) line (if asked_whole (Some (L, t, a0, b0)) line then None else Some (n_pos n, n_end n)))
    as [mt sh1] eqn:Em.
  assert (Mt : mt = retry search (Some (L, t, a0, b0)) line).
  { unfold retry. rewrite Ha, Hb, Ht in Em. destruct mt as [mt|].
    - apply match_date_some in Em as [<- _]. now destruct (asked_whole (Some (L, t, a0, b0)) line).
    - apply match_date_none in Em as [Em _]. rewrite <- Em at 1. now destruct (asked_whole (Some (L, t, a0, b0)) line). }
  assert (Mono : (forall k, (hits_of (shared s) k <= hits_of sh1 k)%Z) /\ (forall k, (hits_of (shared s) k = 0 -> hits_of sh1 k = 0)%Z)).
  { destruct mt as [mt|].
    - apply match_date_some in Em as [_ H]. split; intros k; rewrite H; destruct (eqb k (t_name (d_t e))) eqn:E; try lia.
      apply eqb_true in E as ->. rewrite Ht. lia.
    - apply match_date_none in Em as [_ ->]. split; auto; lia. }
  assert (G : forall w' r', (w', r', (if asked_whole (Some (L, t, a0, b0)) line then Some (n_idx n) else None), sh1) = (w, res, skip, sh) ->
    (match w', r' with
     | Some (a, b, i), _ => exists e, nth_error (ts s) i = Some e /\ kept search (length (ts s)) (Some (L, t, a0, b0)) line (d_t e) a b /\
         (exists n0, Some n = Some n0 /\ n_idx n0 = i)
     | None, Some (a, b, i) => exists e, nth_error (ts s) i = Some e /\ reserved search (length (ts s)) (Some (L, t, a0, b0)) line (d_t e) a b
     | None, None => retry search (Some (L, t, a0, b0)) line = None
     end) ->
    (forall k, (hits_of (shared s) k <= hits_of sh k)%Z) /\
    (forall k, (hits_of (shared s) k = 0 -> hits_of sh k = 0)%Z) /\
    (skip = None \/ asked_whole (Some (L, t, a0, b0)) line = true) /\
    (asked_whole (Some (L, t, a0, b0)) line = true -> exists L' t' a b i e, Some (L, t, a0, b0) = Some (L', t', a, b) /\ skip = Some i /\ nth_error (ts s) i = Some e /\ d_t e = t') /\
    match w, res with
    | Some (a, b, i), _ => exists e, nth_error (ts s) i = Some e /\ kept search (length (ts s)) (Some (L, t, a0, b0)) line (d_t e) a b /\
        (exists n0, Some n = Some n0 /\ n_idx n0 = i)
    | None, Some (a, b, i) => exists e, nth_error (ts s) i = Some e /\ reserved search (length (ts s)) (Some (L, t, a0, b0)) line (d_t e) a b
    | None, None => retry search (Some (L, t, a0, b0)) line = None
    end).
  { intros w' r' Q K. assert (w' = w /\ r' = res /\ (if asked_whole (Some (L, t, a0, b0)) line then Some (n_idx n) else None) = skip /\ sh1 = sh)
      as (<- & <- & Sk & <-) by (repeat split; congruence).
    destruct Mono as [M1 M2]. split; [exact M1|]. split; [exact M2|]. split; [|split; [|exact K]].
    - destruct (asked_whole (Some (L, t, a0, b0)) line); auto.
    - intros Aw. rewrite Aw in Sk. exists L, t, a0, b0, (n_idx n), e. auto. }
  destruct mt as [[a b]|].
  - destruct ((length (ts s) =? 1) || anchored (d_t e) || ((a =? n_pos n) && (b =? n_end n))) eqn:E; intros Q.
    + apply (G _ _ Q). exists e. split; [exact He|]. split; [|eauto]. exists L, a0, b0. rewrite Ht. split; auto. split; auto.
      unfold anchored in E. rewrite Ht in E. rewrite Ha, Hb in E.
      apply orb_true_iff in E as [E|E]; [apply orb_true_iff in E as [E|E]; [left; lia|]|].
      * apply orb_true_iff in E as [E|E]; auto.
      * do 3 right. split; lia.
    + apply (G _ _ Q). exists e. split; [exact He|]. exists L, a0, b0. rewrite Ht. split; auto. split; auto.
      intros (L1 & a1 & b1 & Q1 & Q2 & Q3). injection Q1 as <- <- <-. rewrite Ha, Hb in E. unfold anchored in E. rewrite Ht in E.
      destruct Q3 as [Q3|[Q3|[Q3|[-> ->]]]].
      * rewrite Q3 in E. discriminate.
      * rewrite Q3, orb_true_r in E. discriminate.
      * rewrite Q3, !orb_true_r in E. discriminate.
      * rewrite !Nat.eqb_refl, orb_true_r in E. discriminate.
  - intros Q. apply (G _ _ Q). auto.
Qed.

(** The winner of matchTime *)
Definition pick (s : state) (line : text) : option (nat * nat * nat) * dict string Z :=
  let '(w, res, skip, sh) := try_last search s line in
  match w with
  | Some w => (Some w, sh)
  | None =>
      let '(w, res, sh) := scan search line skip (last_pos s) res sh 0 (ts s) in
      (match w with Some w => Some w | None => res end, sh)
  end.

Lemma match_time_pick s defaults line now : ts s <> [] -> match_time search s defaults line now =
  match pick s line with
  | (Some w, sh) => settle s sh line now w
  | (None, sh) => (mkS (ts s) (names s) (last_seen s) (unused s) sh, Nothing)
  end.
Proof.
  intros H. unfold match_time, pick. destruct (ts s) as [|x y] eqn:E; [contradiction|]. cbn [length Nat.eqb].
  rewrite <- E. destruct (try_last search s line) as [[[w res] skip] sh]. destruct w as [w|]; auto.
  destruct (scan search line skip (last_pos s) res sh 0 (ts s)) as [[w res'] sh']. destruct w; reflexivity.
Qed.

Lemma pick_spec m s line w sh : inv m s -> pick s line = (w, sh) ->
  (forall n, (hits_of (shared s) n <= hits_of sh n)%Z) /\
  match w with
  | Some (a, b, i) => exists e, nth_error (ts s) i = Some e /\ chosen search (ts s) m (shared s) line (d_t e) a b /\
      (0 < hits_of sh (tname e))%Z
  | None => retry search m line = None /\ forall i e a b, ~ says search (ts s) m line i e a b
  end.
Proof.
  intros I. unfold pick. destruct (try_last search s line) as [[[w0 res] skip] sh0] eqn:T.
  destruct (try_last_spec _ _ _ _ _ _ _ I T) as (M1 & M2 & S1 & S2 & K).
  assert (Lp : last_pos s = match m with Some (_, _, a0, _) => a0 | None => 1 end).
  { pose proof (i_seen _ _ I) as R. unfold remembers in R. unfold last_pos.
    destruct (last_seen s) as [n|], m as [[[[L t] a0] b0]|]; try contradiction; auto; destruct R as (e & R); tauto. }
  assert (Pos : forall i e L t a b, nth_error (ts s) i = Some e -> m = Some (L, t, a, b) -> d_t e = t -> (0 < hits_of (shared s) (tname e))%Z).
  { intros i e L t a b He -> <-. pose proof (i_seen _ _ I) as R. unfold remembers in R. destruct (last_seen s); [|contradiction].
    destruct R as (e1 & R). unfold tname. tauto. }
  destruct w0 as [[[a b] i]|].
  - intros [= <- <-]. destruct K as (e & He & Hk & n & Hn & Hi). split; [exact M1|]. exists e. split; [exact He|]. split; [apply by_last; exact Hk|].
    destruct Hk as (L & a0 & b0 & Em & _). specialize (Pos _ _ _ _ _ _ He Em eq_refl). specialize (M1 (tname e)). lia.
  - assert (NK : ~ (exists t a b, kept search (length (ts s)) m line t a b)).
    { intros (t & a & b & (L & a0 & b0 & -> & R & C)). destruct res as [[[a1 b1] i]|].
      - destruct K as (e & He & L1 & a2 & b2 & Q & R1 & N). injection Q as <- E <- <-. rewrite R1 in R. injection R as -> ->.
        apply N. rewrite <- E. exists L, a0, b0. auto.
      - rewrite K in R. discriminate. }
    destruct (scan search line skip (last_pos s) res sh0 0 (ts s)) as [[w1 res1] sh1] eqn:Sc.
    intros [= <- <-]. destruct (scan_spec search line skip (last_pos s) _ _ _ _ _ _ _ (i_nodup _ _ I) Sc) as [Mo W].
    assert (Mt : forall k, (hits_of (shared s) k <= hits_of sh1 k)%Z) by (intros k; specialize (M1 k); specialize (Mo k); lia).
    split; [exact Mt|].
    assert (Cd : forall j e a b, cand search line skip 0 (ts s) j e a b <-> says search (ts s) m line j e a b).
    { intros j e a b. unfold cand, says. cbn [Nat.add]. split; intros (H1 & H2 & H3); (split; [exact H1|]; split; [exact H2|]).
      - intros (Aw & L & a0 & b0 & Em). apply H3. destruct (S2 Aw) as (L1 & t1 & a1 & b1 & i1 & e1 & Em1 & -> & He1 & Ht1).
        rewrite Em in Em1. injection Em1 as <- <- <- <-. f_equal.
        eapply (nodup_same (ts s)); [apply (i_nodup _ _ I) | eauto | eauto |]. unfold tname. now rewrite Ht1.
      - intros Es. destruct S1 as [S1|S1]; [congruence|]. apply H3. split; [exact S1|].
        destruct (S2 S1) as (L1 & t1 & a1 & b1 & i1 & e1 & Em1 & E1 & He1 & Ht1). rewrite <- Es in E1. injection E1 as ->.
        exists L1, a1, b1. rewrite He1 in H1. injection H1 as ->. rewrite Ht1. exact Em1. }
    assert (St : forall j e a, stop (last_pos s) sh0 (ts s) j e a <-> settles (ts s) m (shared s) j e a).
    { intros j e a. unfold stop, settles. rewrite Lp.
      assert (Z0 : forall k, hits_of sh0 k = 0%Z <-> dget k (shared s) = None \/ dget k (shared s) = Some 0%Z).
      { intros k. rewrite <- hits_of_zero. split; intros Q; auto. specialize (M1 k). pose proof (i_shared _ _ I k). lia. }
      split; (intros [H|[H|[H|[(H0 & H1 & e2 & H2 & H3)|H]]]]; [left; exact H|auto|auto| |auto 10]);
        do 3 right; left; (split; [exact H0|]; split; [exact H1|]; exists e2; split; [exact H2|]; apply Z0; exact H3). }
    destruct w1 as [[[a b] k]|].
    + destruct W as (j & e & -> & C & Sp & Hh & F). cbn [Nat.add]. exists e. split; [apply C|]. split.
      * apply (by_order _ _ _ _ _ j e a b NK); [now apply Cd|now apply St|].
        intros j' e' a' b' Lt C'. rewrite <- St. apply (F _ _ _ b'); auto. now apply Cd.
      * pose proof (i_shared _ _ I (tname e)). specialize (M1 (tname e)). unfold tname in *. lia.
    + destruct W as [N F]. unfold near in N. destruct res1 as [[[a b] k]|].
      * destruct N as [[-> N]|(j & e & -> & C & R & N)].
        -- destruct K as (e & He & Hr). exists e. split; [exact He|]. split.
           ++ apply by_reserve; auto. intros j e' a' b' C'. apply Cd in C'. split; [rewrite <- St; now apply (F _ _ _ _ C') | eauto].
           ++ destruct Hr as (L & a0 & b0 & Em & _). specialize (Pos _ _ _ _ _ _ He Em eq_refl). specialize (Mt (tname e)). lia.
        -- cbn [Nat.add]. exists e. split; [apply C|]. split.
           ++ apply (by_distance _ _ _ _ _ j e a b NK); [now apply Cd| |].
              ** intros t a' b' (L & a0 & b0 & Em & Rt & Nk). destruct res as [[[a1 b1] i1]|]; [|congruence].
                 destruct K as (e1 & _ & L1 & a2 & b2 & _ & Rt1 & _). rewrite Rt1 in Rt. injection Rt as -> ->. eapply R; eauto.
              ** intros j' e' a' b' C'. apply Cd in C'. destruct (N _ _ _ _ C') as [N1 N2]. split; [|auto].
                 rewrite <- St. now apply (F _ _ _ _ C').
           ++ destruct (F _ _ _ _ C) as [_ Hh]. pose proof (i_shared _ _ I (tname e)). specialize (M1 (tname e)). unfold tname in *. lia.
      * destruct N as [-> N]. split; [exact K|]. intros i e a b C. apply Cd in C. now apply N in C.
Qed.
End Search.
