(** Lemmas about the search for the template that dates a line. *)
From Coq Require Import QArith Permutation ZifyBool ZifyNat.
From Verif Require Import Base Text DateDetector_Model DateDetector_Spec DateDetector_Proofs.
Local Open Scope nat_scope.

Section Search.
Context (search : template -> text -> option (nat * nat) -> option (nat * nat)).
Notation match_date := (match_date search).
Notation scan := (scan search).

Lemma hits_of_dset sh n v k : hits_of (dset n v sh) k = if eqb k n then v else hits_of sh k.
Proof.
  unfold hits_of. destruct (eqb k n) eqn:E.
  - apply eqb_true in E as ->. now rewrite dget_dset_same.
  - rewrite dget_dset_other; auto. intros ->. rewrite eqb_refl in E; discriminate.
Qed.
Lemma hits_of_zero sh n : hits_of sh n = 0%Z <-> dget n sh = None \/ dget n sh = Some 0%Z.
Proof. unfold hits_of. destruct (dget n sh) as [h|]; split; auto. { intros ->; auto. } intros [H|H]; congruence. Qed.

Lemma match_date_some sh t line part m sh' : match_date sh t line part = (Some m, sh') ->
  search t line part = Some m /\ forall k, hits_of sh' k = if eqb k (t_name t) then (hits_of sh k + 1)%Z else hits_of sh k.
Proof.
  unfold DateDetector_Model.match_date. destruct (search t line part); intros H; [|discriminate]. injection H as -> <-.
  split; auto. intros k. rewrite hits_of_dset. destruct (eqb k (t_name t)) eqn:E; auto. apply eqb_true in E as ->; auto.
Qed.
Lemma match_date_none sh t line part sh' : match_date sh t line part = (None, sh') -> search t line part = None /\ sh' = sh.
Proof. unfold DateDetector_Model.match_date. destruct (search t line part); intros H; [discriminate|]. now injection H as <-. Qed.

Section Scan.
Context (line : text) (skip : option nat) (lp : nat).
Definition cand (i : nat) (l : list entry) (j : nat) (e : entry) (a b : nat) : Prop :=
  nth_error l j = Some e /\ search (d_t e) line None = Some (a, b) /\ Some (i + j) <> skip.
Definition stop (sh : dict string Z) (l : list entry) (j : nat) (e : entry) (a : nat) : Prop :=
  S j = length l \/ t_begin (d_t e) = true \/ t_end (d_t e) = true \/
  (a = 0 /\ d_hits e <> 0%Z /\ exists e2, nth_error l (S j) = Some e2 /\ hits_of sh (t_name (d_t e2)) = 0%Z) \/
  (a <= lp /\ forall k, d_dist e = Some k -> a <= k).
Definition near (i : nat) (l : list entry) (res res' : reserve) : Prop :=
  match res' with
  | None => res = None /\ forall j e a b, ~ cand i l j e a b
  | Some (a, b, k) =>
      (res = Some (a, b, k) /\ forall j e a' b', cand i l j e a' b' -> a <= a') \/
      (exists j e, k = i + j /\ cand i l j e a b /\ (forall a0 b0 k0, res = Some (a0, b0, k0) -> a < a0) /\
         forall j' e' a' b', cand i l j' e' a' b' -> a <= a' /\ (j' < j -> a < a'))
  end.

Lemma cand_cons i d r j e a b : cand i (d :: r) (S j) e a b <-> cand (S i) r j e a b.
Proof. unfold cand. cbn [nth_error]. now replace (i + S j) with (S i + j) by lia. Qed.
Lemma stop_cons sh sh1 d r j e a : NoDup (map (fun e => t_name (d_t e)) (d :: r)) ->
  (forall k, k <> t_name (d_t d) -> hits_of sh1 k = hits_of sh k) ->
  (stop sh (d :: r) (S j) e a <-> stop sh1 r j e a).
Proof.
  intros ND Hs. unfold stop. cbn [length].
  split; intros H.
  - destruct H as [H|[H|[H|[(H0 & H1 & e2 & H2 & H3)|H]]]]; [left; lia|auto|auto| |auto 10].
    do 3 right; left. split; [auto|]. split; [auto|]. exists e2. split; [exact H2|].
    rewrite Hs; auto. cbn [nth_error] in H2. intros E. inversion ND as [|x y Hn ?]; subst. apply Hn.
    rewrite <- E. apply (in_map (fun e => t_name (d_t e))), nth_error_In with (S j), H2.
  - destruct H as [H|[H|[H|[(H0 & H1 & e2 & H2 & H3)|H]]]]; [left; lia|auto|auto| |auto 10].
    do 3 right; left. split; [auto|]. split; [auto|]. exists e2. split; [exact H2|].
    rewrite <- Hs; auto. intros E. inversion ND as [|x y Hn ?]; subst. apply Hn.
    rewrite <- E. apply (in_map (fun e => t_name (d_t e))), nth_error_In with (S j), H2.
Qed.

(** The head is no winner *)
Lemma near_skip i d r res res' : (forall e a b, ~ cand i (d :: r) 0 e a b) -> near (S i) r res res' -> near i (d :: r) res res'.
Proof.
  intros H N. unfold near in *. destruct res' as [[[a b] k]|].
  - destruct N as [[-> N]|(j & e & -> & C & R & N)].
    + left. split; auto. intros [|j] e a' b' C; [now apply H in C|]. apply cand_cons in C. eauto.
    + right. exists (S j), e. split; [lia|]. split; [now apply cand_cons|]. split; [exact R|].
      intros [|j'] e' a' b' C'; [now apply H in C'|]. apply cand_cons in C'. destruct (N _ _ _ _ C') as [N1 N2]. split; auto.
      intros; apply N2; lia.
  - destruct N as [-> N]. split; auto. intros [|j] e a b C; [now apply H in C|]. apply cand_cons in C. now apply N in C.
Qed.
(** The head goes into the reserve, if it is nearer *)
Lemma near_take i d r a b res res' : cand i (d :: r) 0 d a b ->
  near (S i) r (match res with None => Some (a, b, i) | Some (a', _, _) => if a <? a' then Some (a, b, i) else res end) res' ->
  near i (d :: r) res res'.
Proof.
  intros C0 N.
  assert (Only : forall e a' b', cand i (d :: r) 0 e a' b' -> a' = a).
  { intros e a' b' (H1 & H2 & _). destruct C0 as (H3 & H4 & _). cbn in H1. congruence. }
  assert (Small : forall a0 b0 k0, res = Some (a0, b0, k0) -> a0 <= a -> near (S i) r res res' -> near i (d :: r) res res').
  { intros a0 b0 k0 E L M. unfold near in *. destruct res' as [[[a1 b1] k]|].
    - destruct M as [[M0 M]|(j & e & -> & C & R & M)].
      + left. split; auto. intros [|j] e a' b' C'; [apply Only in C'; subst a'; congruence || (rewrite E in M0; injection M0 as -> -> ->; lia)|].
        apply cand_cons in C'. eauto.
      + right. exists (S j), e. split; [lia|]. split; [now apply cand_cons|]. split; [exact R|]. specialize (R _ _ _ E).
        intros [|j'] e' a' b' C'. { apply Only in C'; subst a'. split; lia. }
        apply cand_cons in C'. destruct (M _ _ _ _ C') as [N1 N2]. split; auto. intros; apply N2; lia.
    - destruct M as [M _]; congruence. }
  assert (New : (forall a0 b0 k0, res = Some (a0, b0, k0) -> a < a0) -> near (S i) r (Some (a, b, i)) res' -> near i (d :: r) res res').
  { intros R M. unfold near in *. destruct res' as [[[a1 b1] k]|].
    - right. destruct M as [[M0 M]|(j & e & -> & C & R1 & M)].
      + injection M0 as <- <- <-. exists 0, d. split; [lia|]. split; [exact C0|]. split; [exact R|].
        intros [|j'] e' a' b' C'. { apply Only in C'. subst. split; lia. }
        apply cand_cons in C'. split; [eauto | lia].
      + specialize (R1 _ _ _ eq_refl). exists (S j), e. split; [lia|]. split; [now apply cand_cons|].
        split. { intros a0 b0 k0 E. specialize (R _ _ _ E). lia. }
        intros [|j'] e' a' b' C'. { apply Only in C'. subst. split; lia. }
        apply cand_cons in C'. destruct (M _ _ _ _ C') as [N1 N2]. split; auto. intros; apply N2; lia.
    - destruct M as [M _]; congruence. }
  destruct res as [[[a0 b0] k0]|].
  - destruct (a <? a0) eqn:E.
    + apply New; auto. intros ? ? ? Q. injection Q as <- <- <-. lia.
    + apply (Small a0 b0 k0); auto; lia.
  - apply New; auto. intros; discriminate.
Qed.

Lemma scan_spec : forall l i res sh w res' sh', NoDup (map (fun e => t_name (d_t e)) l) ->
  scan line skip lp res sh i l = (w, res', sh') ->
  (forall n, (hits_of sh n <= hits_of sh' n)%Z) /\
  match w with
  | Some (a, b, k) => exists j e, k = i + j /\ cand i l j e a b /\ stop sh l j e a /\ (hits_of sh (t_name (d_t e)) < hits_of sh' (t_name (d_t e)))%Z /\
      forall j' e' a' b', j' < j -> cand i l j' e' a' b' -> ~ stop sh l j' e' a'
  | None => near i l res res' /\
      forall j e a b, cand i l j e a b -> ~ stop sh l j e a /\ (hits_of sh (t_name (d_t e)) < hits_of sh' (t_name (d_t e)))%Z
  end.
Proof.
  induction l as [|d r IH]; intros i res sh w res' sh' ND Hs; cbn [DateDetector_Model.scan] in Hs.
  - injection Hs as <- <- <-. split; [lia|]. split.
    + unfold near. assert (K : forall j e a b, ~ cand i [] j e a b) by (intros [|j] e a b (H & _); discriminate).
      destruct res as [[[a b] k]|]; auto. left. split; auto. intros j e a' b' C. now apply K in C.
    + intros [|j] e a b (H & _); discriminate.
  - assert (ND' : NoDup (map (fun e => t_name (d_t e)) r)) by now inversion ND.
    (* the rest, when the head is not the winner *)
    assert (Rest : forall res1 sh1, (forall k, k <> t_name (d_t d) -> hits_of sh1 k = hits_of sh k) ->
      (forall k, (hits_of sh k <= hits_of sh1 k)%Z) ->
      (forall e a b, cand i (d :: r) 0 e a b -> ~ stop sh (d :: r) 0 e a /\ (hits_of sh (t_name (d_t e)) < hits_of sh1 (t_name (d_t e)))%Z) ->
      (near (S i) r res1 res' -> near i (d :: r) res res') ->
      scan line skip lp res1 sh1 (S i) r = (w, res', sh') ->
      (forall n, (hits_of sh n <= hits_of sh' n)%Z) /\
      match w with
      | Some (a, b, k) => exists j e, k = i + j /\ cand i (d :: r) j e a b /\ stop sh (d :: r) j e a /\ (hits_of sh (t_name (d_t e)) < hits_of sh' (t_name (d_t e)))%Z /\
          forall j' e' a' b', j' < j -> cand i (d :: r) j' e' a' b' -> ~ stop sh (d :: r) j' e' a'
      | None => near i (d :: r) res res' /\
          forall j e a b, cand i (d :: r) j e a b -> ~ stop sh (d :: r) j e a /\ (hits_of sh (t_name (d_t e)) < hits_of sh' (t_name (d_t e)))%Z
      end).
    { intros res1 sh1 Hk Hle H0 Hn Hsc. destruct (IH _ _ _ _ _ _ ND' Hsc) as [Hmono Hw].
      assert (Tr : forall n, (hits_of sh n <= hits_of sh' n)%Z) by (intros n; specialize (Hle n); specialize (Hmono n); lia).
      split; [exact Tr|]. destruct w as [[[a b] k]|].
      - destruct Hw as (j & e & -> & C & St & Hh & F). exists (S j), e. split; [lia|]. split; [now apply cand_cons|].
        split; [now apply (stop_cons sh sh1)|]. split. { specialize (Hle (t_name (d_t e))). lia. }
        intros [|j'] e' a' b' L C'; [now apply (H0 _ _ _ C')|]. apply cand_cons in C'. rewrite (stop_cons sh sh1) by auto.
        apply (F _ _ _ b'); auto; lia.
      - destruct Hw as [N F]. split; [auto|]. intros [|j] e a b C.
        + destruct (H0 _ _ _ C) as [H1 H2]. split; [exact H1|]. specialize (Hmono (t_name (d_t e))). lia.
        + apply cand_cons in C. destruct (F _ _ _ _ C) as [H1 H2]. rewrite (stop_cons sh sh1) by auto. split; [exact H1|].
          specialize (Hle (t_name (d_t e))). lia. }
    destruct (eqb (Some i) skip) eqn:Esk.
    { apply eqb_true in Esk. apply (Rest res sh); auto; try lia.
      - intros e a b (_ & _ & C). exfalso. apply C. rewrite Nat.add_0_r. auto.
      - apply near_skip. intros e a b (_ & _ & C). apply C. rewrite Nat.add_0_r. auto. }
    assert (Nsk : Some (i + 0) <> skip). { rewrite Nat.add_0_r. intros E. rewrite <- E, eqb_refl in Esk. discriminate. }
    destruct (match_date sh (d_t d) line None) as [m sh1] eqn:Em. destruct m as [[a b]|].
    + apply match_date_some in Em as [Hm Hh].
      assert (C0 : cand i (d :: r) 0 d a b) by (repeat split; auto).
      assert (Only : forall e a' b', cand i (d :: r) 0 e a' b' -> e = d /\ a' = a).
      { intros e a' b' (Q1 & Q2 & _). cbn in Q1. injection Q1 as <-. rewrite Q2 in Hm. split; congruence. }
      assert (Hlt : (hits_of sh (t_name (d_t d)) < hits_of sh1 (t_name (d_t d)))%Z) by (rewrite Hh, eqb_refl; lia).
      assert (Hle : forall k, (hits_of sh k <= hits_of sh1 k)%Z) by (intros k; rewrite Hh; destruct (eqb k (t_name (d_t d))); lia).
      assert (Hot : forall k, k <> t_name (d_t d) -> hits_of sh1 k = hits_of sh k).
      { intros k Q. rewrite Hh. destruct (eqb k (t_name (d_t d))) eqn:E; auto. apply eqb_true in E; contradiction. }
      assert (Win : (Some (a, b, i), res, sh1) = (w, res', sh') -> stop sh (d :: r) 0 d a ->
        (forall n, (hits_of sh n <= hits_of sh' n)%Z) /\
        match w with
        | Some (a, b, k) => exists j e, k = i + j /\ cand i (d :: r) j e a b /\ stop sh (d :: r) j e a /\ (hits_of sh (t_name (d_t e)) < hits_of sh' (t_name (d_t e)))%Z /\
            forall j' e' a' b', j' < j -> cand i (d :: r) j' e' a' b' -> ~ stop sh (d :: r) j' e' a'
        | None => near i (d :: r) res res' /\
            forall j e a b, cand i (d :: r) j e a b -> ~ stop sh (d :: r) j e a /\ (hits_of sh (t_name (d_t e)) < hits_of sh' (t_name (d_t e)))%Z
        end).
      { intros Q St. injection Q as <- <- <-. split; [exact Hle|]. exists 0, d. split; [lia|].
        split; [exact C0|]. split; [exact St|]. split; [exact Hlt|]. lia. }
      destruct r as [|d2 r'].
      { apply Win; auto. now left. }
      destruct (anchored (d_t d)) eqn:Ea.
      { apply Win; auto. unfold anchored in Ea. apply orb_true_iff in Ea as [Ea|Ea]; right; [left|right; left]; exact Ea. }
      destruct ((a =? 0) && negb (d_hits d =? 0)%Z && (hits_of sh1 (t_name (d_t d2)) =? 0)%Z) eqn:E1.
      { apply Win; auto. do 3 right; left. split; [lia|]. split; [lia|]. exists d2. split; auto.
        rewrite <- Hot; [lia|]. cbn in ND. inversion ND as [|x y Hn _]; subst. intros Q. apply Hn. left; auto. }
      destruct ((match d_dist d with Some k => k <? a | None => false end) || (lp <? a)) eqn:E2.
      * eapply Rest; [exact Hot|exact Hle| | |exact Hs].
        -- intros e a' b' C'. destruct (Only _ _ _ C') as [-> ->]. split; [|exact Hlt].
           unfold stop. intros [Q|[Q|[Q|[(Q0 & Q1 & e2 & Q2 & Q3)|[Q1 Q2]]]]].
           ++ cbn [length] in Q. lia.
           ++ unfold anchored in Ea. rewrite Q in Ea. discriminate.
           ++ unfold anchored in Ea. rewrite Q, orb_true_r in Ea. discriminate.
           ++ cbn [nth_error] in Q2. injection Q2 as <-. rewrite Hot in E1. lia.
              cbn in ND. inversion ND as [|x y Hn _]; subst. intros Q. apply Hn. left; auto.
           ++ apply orb_true_iff in E2 as [E2|E2]; [|lia]. destruct (d_dist d) as [k|]; [|discriminate]. specialize (Q2 _ eq_refl). lia.
        -- intros N. apply (near_take i d (d2 :: r') a b); auto.
      * apply Win; auto. do 4 right. apply orb_false_iff in E2 as [E2 E3]. split; [lia|]. intros k Q. rewrite Q in E2. lia.
    + apply match_date_none in Em as [Hm ->].
      assert (No : forall e a b, ~ cand i (d :: r) 0 e a b).
      { intros e a b (Q1 & Q2 & _). cbn in Q1. injection Q1 as <-. congruence. }
      eapply (Rest res sh); auto; try lia.
      * intros e a b C. now apply No in C.
      * now apply near_skip.
Qed.
End Scan.
End Search.
