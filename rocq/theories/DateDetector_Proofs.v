(** Lemmas about the list of date templates. *)
From Coq Require Import QArith Permutation ZifyBool ZifyNat.
From Verif Require Import Base Text DateDetector_Model DateDetector_Spec.
Local Open Scope nat_scope.

Lemma at1_sub1 l k : at1 l k = sub1 l k.
Proof.
  unfold at1, sub1. revert k; induction l as [|c l IH]; intros [|k]; cbn; auto.
  apply IH.
Qed.
Lemma behind_before l k : behind l k = before l k.
Proof. destruct k; cbn [behind before]; auto using at1_sub1. Qed.
Lemma isalnum_spec c : letter_or_digit c = isalnum c.
Proof. destruct c as [[] [] [] [] [] [] [] []]; vm_compute; reflexivity. Qed.

Lemma set_nth_split {A} (l : list A) i x y : nth_error l i = Some x ->
  exists p q, l = p ++ x :: q /\ length p = i /\ set_nth i y l = p ++ y :: q.
Proof.
  revert i; induction l as [|z l IH]; intros [|i] H; cbn in H; try discriminate.
  - injection H as ->. exists [], l. auto.
  - destruct (IH _ H) as (p & q & -> & <- & E). exists (z :: p), q. cbn. now rewrite E.
Qed.

Lemma nth_error_mid {A} (p q : list A) x : nth_error (p ++ x :: q) (length p) = Some x.
Proof. induction p; cbn; auto. Qed.
Lemma nth_split_at {A} (l : list A) i x : nth_error l i = Some x -> exists p q, l = p ++ x :: q /\ length p = i.
Proof. intros H. destruct (nth_error_split _ _ H) as (p & q & ? & ?); eauto. Qed.
Lemma del_mid {A} (p q : list A) x : del_nth (length p) (p ++ x :: q) = p ++ q.
Proof.
  unfold del_nth. rewrite firstn_app, Nat.sub_diag, firstn_all, app_nil_r. f_equal.
  rewrite skipn_app. rewrite skipn_all2 by lia. replace (S (length p) - length p) with 1 by lia. reflexivity.
Qed.
Lemma ins_at {A} (p q : list A) x : ins_nth (length p) x (p ++ q) = p ++ x :: q.
Proof.
  unfold ins_nth. rewrite firstn_app, Nat.sub_diag, firstn_all, app_nil_r. f_equal.
  rewrite skipn_app. rewrite skipn_all2 by lia. now rewrite Nat.sub_diag.
Qed.

Lemma heavier_spec a b : heavier a b = true <-> (weight b < weight a)%Q.
Proof.
  unfold heavier, weight, over. rewrite Z.ltb_lt.
  set (x := (d_hits a * t_weight (d_t a))%Z). set (y := (d_hits b * t_weight (d_t b))%Z).
  assert (Ha : (0 < Z.max 1 (match d_dist a with Some k => Z.of_nat k | None => 2147483647 end))%Z) by lia.
  assert (Hb : (0 < Z.max 1 (match d_dist b with Some k => Z.of_nat k | None => 2147483647 end))%Z) by lia.
  unfold far. revert Ha Hb.
  generalize (Z.max 1 (match d_dist a with Some k => Z.of_nat k | None => 2147483647 end)).
  generalize (Z.max 1 (match d_dist b with Some k => Z.of_nat k | None => 2147483647 end)).
  intros n k Hk Hn. destruct n as [|n|n]; try lia. destruct k as [|k|k]; try lia.
  unfold Qlt, Qdiv, Qmult, Qinv, inject_Z; cbn [Qnum Qden]. rewrite !Pos.mul_1_l, !Z.mul_1_r. reflexivity.
Qed.

(** What _reorderTemplate does *)
Definition why (u : nat) (front passed : list entry) (d : entry) : Prop :=
  match passed with
  | [] => True
  | p :: r => may_pass d p /\
      (length front = u \/ (length front + length passed <= u /\ length front = Nat.div2 (length front + length passed)) \/ r = [])
  end.

Lemma moveable_spec l d pos : moveable l d pos = true -> exists p, nth_error l pos = Some p /\ may_pass d p.
Proof.
  unfold moveable. destruct (nth_error l pos) as [p|]; [|discriminate]. intros H. exists p; split; auto.
  apply orb_true_iff in H as [H|H]; [left; now apply heavier_spec | right; lia].
Qed.

Lemma div2_le n : Nat.div2 (S n) <= n.
Proof. rewrite Nat.div2_div. pose proof (Nat.div_lt (S n) 2). lia. Qed.

Lemma reorder_spec l u i d l' u' j : nth_error l i = Some d -> reorder l u i = (l', u', j) ->
  exists front passed rest, l = front ++ passed ++ d :: rest /\ l' = front ++ d :: passed ++ rest /\ j = length front /\
    i = length (front ++ passed) /\ why u front passed d /\
    u' = match passed with [] => u | _ => advance u l' end.
Proof.
  intros H R. destruct (nth_split_at _ _ _ H) as (p & q & E & L).
  assert (Stay : (l, u, i) = (l', u', j) -> exists front passed rest, l = front ++ passed ++ d :: rest /\
    l' = front ++ d :: passed ++ rest /\ j = length front /\ i = length (front ++ passed) /\ why u front passed d /\
    u' = match passed with [] => u | _ => advance u l' end).
  { intros Q. injection Q as <- <- <-. exists p, [], q. rewrite app_nil_r. cbn. auto 10. }
  unfold reorder in R. destruct i as [|n]; auto. rewrite H in R.
  assert (Move : forall k, k < S n -> (exists e, nth_error l k = Some e /\ may_pass d e) ->
    (k = u \/ (u >= S n /\ k = Nat.div2 (S n)) \/ k = n) ->
    (ins_nth k d (del_nth (S n) l), advance u (ins_nth k d (del_nth (S n) l)), k) = (l', u', j) ->
    exists front passed rest, l = front ++ passed ++ d :: rest /\ l' = front ++ d :: passed ++ rest /\ j = length front /\
    S n = length (front ++ passed) /\ why u front passed d /\ u' = match passed with [] => u | _ => advance u l' end).
  { intros k Hk (e & He & Hm) W Q. injection Q as Q1 Q2 <-. rewrite Q1 in Q2.
    rewrite E, nth_error_app1 in He by lia. destruct (nth_split_at _ _ _ He) as (f & r & Ep & Lf).
    exists f, (e :: r), q. subst p. rewrite E in Q1 |- *.
    rewrite <- L, del_mid in Q1. rewrite <- app_assoc in Q1. rewrite <- Lf, ins_at in Q1.
    rewrite <- app_assoc. repeat (split; [solve [auto]|]).
    assert (Len : length f + length (e :: r) = S n) by (rewrite <- L, app_length; lia).
    split; auto. cbn [why]. split; auto. rewrite Len, Lf.
    destruct W as [?|[[? ?]| ->]]; [auto| |]. { right; left; split; lia. }
    right; right. destruct r; auto. cbn [length] in Len. lia. }
  cbv zeta in R. destruct (u <? S n) eqn:Eu.
  - destruct (moveable l d u) eqn:M1.
    + apply (Move u); auto using moveable_spec; lia.
    + destruct (u =? n); auto. destruct (moveable l d n) eqn:M2; auto.
      apply (Move n); auto using moveable_spec; lia.
  - destruct (moveable l d (Nat.div2 (S n))) eqn:M1.
    + pose proof (div2_le n). apply (Move (Nat.div2 (S n))); auto using moveable_spec; lia.
    + destruct (Nat.div2 (S n) =? n); auto. destruct (moveable l d n) eqn:M2; auto.
      apply (Move n); auto using moveable_spec; lia.
Qed.

Lemma reorder_jump l u i d l' u' j e : nth_error l i = Some d -> reorder l u i = (l', u', j) -> u < i ->
  nth_error l u = Some e -> heavier d e = true -> j = u.
Proof.
  intros H R L He Hh. unfold reorder in R. destruct i as [|n]; [lia|]. rewrite H in R. cbv zeta in R.
  replace (u <? S n) with true in R by lia. unfold moveable at 1 in R. rewrite He, Hh in R. cbn [orb] in R. congruence.
Qed.
