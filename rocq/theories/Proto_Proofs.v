(** Proofs about the protocol. *)
From Verif Require Import Base Text Proto_Model Proto_Spec.
From Coq Require Import ZifyBool ZifyNat.

(** ** find *)
Lemma starts_iff p : forall s, starts p s = true <-> exists r, s = p ++ r.
Proof.
  induction p as [|x p IH]; intros s; cbn; [split; eauto|]. destruct s as [|y s].
  - split; [discriminate|]. intros [r E]. discriminate.
  - rewrite andb_true_iff, IH. split.
    + intros [E [r ->]]. apply eqb_true in E as ->. eauto.
    + intros [r E]. injection E as -> ->. split; [apply eqb_refl|eauto].
Qed.
Lemma ends_iff p s : ends p s = true <-> exists q, s = q ++ p.
Proof.
  unfold ends. rewrite starts_iff. split; intros [r E].
  - exists (rev r). rewrite <- (rev_involutive s), E, rev_app_distr, rev_involutive. reflexivity.
  - exists (rev r). now rewrite E, rev_app_distr.
Qed.
Lemma find_some p : forall s i, find p s = Some i -> (exists r, s = firstn i s ++ p ++ r) /\ (i <= length s)%nat /\ forall j, (j < i)%nat -> starts p (skipn j s) = false.
Proof.
  induction s as [|x s IH]; intros i E; cbn [find] in E.
  - destruct (starts p []) eqn:S; [|discriminate]. injection E as <-. apply starts_iff in S as [r S]. split; [exists r; exact S|]. split; [cbn; lia|lia].
  - destruct (starts p (x :: s)) eqn:S.
    + injection E as <-. apply starts_iff in S as [r S]. split; [exists r; exact S|]. split; [cbn; lia|lia].
    + destruct (find p s) as [k|] eqn:F; [|discriminate]. injection E as <-. destruct (IH k eq_refl) as ([r E] & L & H). split; [|split].
      * exists r. cbn. now f_equal.
      * cbn. lia.
      * intros [|j] Hj; [exact S|]. cbn. apply H. lia.
Qed.
Lemma find_none p : p <> [] -> forall s, find p s = None -> forall j, starts p (skipn j s) = false.
Proof.
  intros N. induction s as [|x s IH]; intros E j; cbn [find] in E.
  - rewrite skipn_nil. destruct (starts p []); [discriminate|reflexivity].
  - destruct (starts p (x :: s)) eqn:S; [discriminate|]. destruct (find p s) eqn:F; [discriminate|]. destruct j; [exact S|]. cbn. now apply IH.
Qed.
Lemma END_len : length END = 17%nat. Proof. reflexivity. Qed.
Lemma END_nonempty : END <> []. Proof. discriminate. Qed.

Lemma starts_at s j : starts END (skipn j s) = true <-> exists r, (j <= length s)%nat /\ s = firstn j s ++ END ++ r.
Proof.
  rewrite starts_iff. split.
  - intros [r E]. exists r. split; [|rewrite <- (firstn_skipn j s) at 1; now rewrite E].
    destruct (Nat.leb_spec j (length s)); [exact H|]. rewrite skipn_all2 in E by lia. discriminate.
  - intros (r & L & E). exists r. rewrite E. rewrite skipn_app, firstn_length. replace (j - Nat.min j (length s))%nat with 0%nat by lia.
    rewrite skipn_all2; [reflexivity|]. rewrite firstn_length. lia.
Qed.
Lemma has_end_at m : has_end m <-> exists j, (j + 17 <= length m)%nat /\ starts END (skipn j m) = true.
Proof.
  split.
  - intros (a & b & ->). exists (length a). rewrite !app_length, END_len. split; [lia|]. rewrite skipn_app, skipn_all, Nat.sub_diag. apply starts_iff. exists b. reflexivity.
  - intros (j & L & S). apply starts_at in S as (r & _ & E). exists (firstn j m), r. exact E.
Qed.
Lemma starts_more j s f : (j + 17 <= length s)%nat -> starts END (skipn j (s ++ f)) = starts END (skipn j s).
Proof.
  intros L. rewrite skipn_app. replace (j - length s)%nat with 0%nat by lia. cbn [skipn].
  destruct (starts END (skipn j s)) eqn:S.
  - apply starts_iff in S as [r E]. apply starts_iff. exists (r ++ f). now rewrite E, <- app_assoc.
  - apply not_true_is_false. intros X. apply starts_iff in X as [r E].
    assert (Ls : (17 <= length (skipn j s))%nat) by (rewrite skipn_length; lia).
    assert (Q : skipn j s = END ++ skipn 17 (skipn j s)).
    { rewrite <- (firstn_skipn 17 (skipn j s)) at 1. f_equal. apply (f_equal (firstn 17)) in E. rewrite firstn_app in E. replace (17 - length (skipn j s))%nat with 0%nat in E by lia.
      rewrite firstn_O, app_nil_r in E. exact E. }
    enough (starts END (skipn j s) = true) by congruence. apply starts_iff. eauto.
Qed.

(** ** the terminator does not overlap with itself *)
Lemma find_frame m r : ~ has_end m -> find END (m ++ END ++ r) = Some (length m).
Proof.
  intros N. destruct (find END (m ++ END ++ r)) as [i|] eqn:F.
  - apply find_some in F as ([r' E] & L & H). destruct (Nat.eq_dec i (length m)) as [->|D]; [reflexivity|]. exfalso.
    destruct (Nat.leb_spec i (length m)).
    + assert (S : starts END (skipn i (m ++ END ++ r)) = true) by (apply starts_at; eauto).
      destruct (Nat.leb_spec (i + 17) (length m)).
      * apply N, has_end_at. exists i. split; [lia|]. now rewrite starts_more in S.
      * rewrite skipn_app in S. replace (i - length m)%nat with 0%nat in S by lia. cbn [skipn] in S. apply starts_iff in S as [x S].
        assert (K : exists k, (0 < k < 17)%nat /\ length (skipn i m) = k) by (exists (length m - i)%nat; rewrite skipn_length; lia). destruct K as (k & K & Lk).
        apply (f_equal (fun l => nth k l "x"%char)) in S. rewrite app_nth2 in S by lia. rewrite Lk, Nat.sub_diag in S. rewrite app_nth1 in S by (rewrite END_len; lia).
        do 17 (destruct k as [|k]; [try lia; discriminate S|]). lia.
    + assert (starts END (skipn (length m) (m ++ END ++ r)) = false) by (apply H; lia).
      rewrite skipn_app, skipn_all, Nat.sub_diag in H1. cbn [skipn app] in H1. assert (starts END (END ++ r) = true) by (apply starts_iff; eauto). congruence.
  - exfalso. pose proof (find_none END END_nonempty _ F (length m)) as X. rewrite skipn_app, skipn_all, Nat.sub_diag in X. cbn [skipn app] in X.
    assert (starts END (END ++ r) = true) by (apply starts_iff; eauto). congruence.
Qed.
Lemma find_no_end m : ~ has_end m -> find END m = None.
Proof.
  intros N. destruct (find END m) as [i|] eqn:F; [|reflexivity]. apply find_some in F as ([r E] & _). destruct N. exists (firstn i m), r. exact E.
Qed.
Lemma framed_app a b : framed (a ++ b) = framed a ++ framed b.
Proof. unfold framed. now rewrite map_app, concat_app. Qed.
Lemma framed_cons m ms : framed (m :: ms) = m ++ END ++ framed ms.
Proof. unfold framed. cbn. now rewrite <- app_assoc. Qed.
(** A byte stream has at most one reading. *)
Lemma framed_unique : forall ms ms' r r', Forall (fun m => ~ has_end m) ms -> Forall (fun m => ~ has_end m) ms' -> ~ has_end r -> ~ has_end r' ->
  framed ms ++ r = framed ms' ++ r' -> ms = ms' /\ r = r'.
Proof.
  induction ms as [|m ms IH]; intros ms' r r' F F' N N' E.
  - destruct ms' as [|m' ms']; [auto|]. exfalso. apply N. change (framed [] ++ r) with r in E. rewrite E. rewrite framed_cons, <- !app_assoc. exists m', (framed ms' ++ r'). reflexivity.
  - destruct ms' as [|m' ms'].
    + exfalso. apply N'. change (framed [] ++ r') with r' in E. rewrite <- E. rewrite framed_cons, <- !app_assoc. exists m, (framed ms ++ r). reflexivity.
    + inversion F; inversion F'; subst. rewrite !framed_cons, <- !app_assoc in E.
      pose proof (f_equal (find END) E) as Q. rewrite !find_frame in Q by assumption. injection Q as Q.
      assert (Em : m = m').
      { apply (f_equal (firstn (length m))) in E. rewrite Q in E at 2. rewrite !firstn_app, !Nat.sub_diag, !firstn_all, !firstn_O, !app_nil_r in E. exact E. }
      subst m'. apply app_inv_head in E. apply app_inv_head in E. apply IH in E as [-> ->]; auto.
Qed.

(** ** the reading loop *)
(** No terminator begins in what was collected, whatever comes. *)
Definition safe (P B : bytes) : Prop := forall F j, (j < length P)%nat -> starts END (skipn j (P ++ B ++ F)) = false.
Lemma safe_more P B C : safe P B -> safe P (B ++ C).
Proof. intros S F j L. rewrite <- app_assoc. now apply S. Qed.
Lemma safe_nil B : safe [] B. Proof. intros F j L. cbn in L. lia. Qed.
Lemma safe_no_end P B : safe P B -> (length B < 17)%nat -> ~ has_end (P ++ B).
Proof.
  intros S L H. apply has_end_at in H as (j & Lj & E). rewrite app_length in Lj.
  rewrite <- (app_nil_r B) in E. rewrite S in E by lia. discriminate.
Qed.
Lemma pae_bound L hay needle : (prefix_at_end L hay needle <= L)%nat.
Proof. induction L as [|L IH]; cbn [prefix_at_end]; [lia|]. destruct (ends _ _); lia. Qed.
Lemma pae_max hay needle : forall L l, (0 < l <= L)%nat -> ends (firstn l needle) hay = true -> (l <= prefix_at_end L hay needle)%nat.
Proof.
  induction L as [|L IH]; intros l R E; [lia|]. cbn [prefix_at_end]. destruct (ends (firstn (S L) needle) hay) eqn:Q; [lia|].
  destruct (Nat.eq_dec l (S L)) as [->|]; [congruence|]. apply IH; [lia|exact E].
Qed.
Lemma pae_ends hay needle : forall L, ends (firstn (prefix_at_end L hay needle) needle) hay = true.
Proof. induction L as [|L IH]; cbn [prefix_at_end]; [apply ends_iff; exists hay; cbn; now rewrite app_nil_r|]. destruct (ends (firstn (S L) needle) hay) eqn:Q; [exact Q|exact IH]. Qed.

Lemma read_loop_spec : forall fuel b parts b' parts' ms, (length b < fuel)%nat -> safe (concat parts) b -> read_loop fuel b parts = (b', parts', ms) ->
  concat parts ++ b = framed ms ++ concat parts' ++ b' /\ Forall (fun m => ~ has_end m) ms /\ safe (concat parts') b' /\ (length b' < 17)%nat.
Proof.
  induction fuel as [|fuel IH]; intros b parts b' parts' ms L S E; [lia|]. cbn [read_loop] in E.
  destruct b as [|x b0] eqn:Eb; [injection E as <- <- <-; cbn; auto with arith|]. rewrite <- Eb in *. assert (Lb : (0 < length b)%nat) by (rewrite Eb; cbn; lia). clear Eb.
  destruct (find END b) as [i|] eqn:F.
  - apply find_some in F as ([r Er] & Li & Hi).
    assert (Cp : concat (if Nat.ltb 0 i then parts ++ [firstn i b] else parts) = concat parts ++ firstn i b).
    { destruct (Nat.ltb_spec 0 i); [rewrite concat_app; cbn; now rewrite app_nil_r|]. replace i with 0%nat by lia. cbn. now rewrite app_nil_r. }
    assert (Sk : skipn (i + length END) b = r).
    { rewrite Er at 1. rewrite app_assoc. rewrite skipn_app. rewrite skipn_all2; [|rewrite app_length, firstn_length; lia]. rewrite app_length, firstn_length.
      replace (i + length END - (Nat.min i (length b) + length END))%nat with 0%nat by lia. reflexivity. }
    rewrite Sk in E. destruct (read_loop fuel r []) as [[b1 p1] m1] eqn:R. injection E as <- <- <-.
    apply (f_equal (@length ascii)) in Er as Lr. rewrite !app_length, END_len in Lr.
    apply IH in R as (R1 & R2 & R3 & R4); [|lia|apply safe_nil]. cbn [concat app] in R1. split; [|split; [|split; [exact R3|exact R4]]].
    + rewrite framed_cons. unfold bytes, text in *. rewrite Cp. rewrite <- !app_assoc. rewrite Er at 1. rewrite R1. reflexivity.
    + constructor; [|exact R2]. unfold bytes, text in *. rewrite Cp. intros H. apply has_end_at in H as (j & Lj & Sj). rewrite app_length, firstn_length in Lj.
      destruct (Nat.ltb_spec j (length (concat parts))) as [Lt|Ge].
      * assert (X : starts END (skipn j (concat parts ++ b ++ [])) = false) by (apply S; lia). rewrite app_nil_r in X.
        rewrite Er in X. rewrite app_assoc in X. rewrite starts_more in X; [congruence|]. rewrite app_length, firstn_length. lia.
      * rewrite skipn_app in Sj. rewrite skipn_all2 in Sj by lia. cbn [app] in Sj. assert (X : starts END (skipn (j - length (concat parts)) b) = false) by (apply Hi; lia).
        rewrite Er in X. rewrite starts_more in X; [congruence|]. rewrite firstn_length. lia.
  - pose proof (find_none END END_nonempty _ F) as Nf. set (k := prefix_at_end (length END - 1) b END) in E.
    assert (Kb : (k <= 16)%nat) by apply (pae_bound 16).
    assert (Ke : exists q, b = q ++ firstn k END) by (apply ends_iff; apply pae_ends). destruct Ke as [q Eq].
    assert (Lk : length (firstn k END) = k) by (rewrite firstn_length, END_len; lia).
    assert (Lq : length b = (length q + k)%nat) by (rewrite Eq at 1; rewrite app_length; lia).
    assert (Safe : safe (concat parts ++ q) (firstn k END)).
    { intros G j Lj. rewrite app_length in Lj. rewrite <- app_assoc. rewrite (app_assoc q), <- Eq. destruct (Nat.ltb_spec j (length (concat parts))); [now apply S|].
      rewrite skipn_app, skipn_all2 by lia. cbn [app]. assert (Hj' : (j - length (concat parts) < length q)%nat) by (unfold bytes, text in *; lia). remember (j - length (concat parts))%nat as j' eqn:Ej. apply not_true_is_false. intros X.
      destruct (Nat.leb_spec (j' + 17) (length b)); [rewrite starts_more in X by lia; rewrite Nf in X; discriminate|].
      apply starts_iff in X as [r X]. rewrite skipn_app in X. replace (j' - length b)%nat with 0%nat in X by lia. cbn [skipn] in X.
      assert (Ls : length (skipn j' b) = (length b - j')%nat) by apply skipn_length.
      assert (Q : skipn j' b = firstn (length b - j') END).
      { apply (f_equal (firstn (length b - j'))) in X. rewrite firstn_app, Ls, Nat.sub_diag, firstn_O, app_nil_r in X. rewrite <- Ls in X at 1. rewrite firstn_all in X.
        rewrite X. rewrite firstn_app. replace (length b - j' - length END)%nat with 0%nat by (rewrite END_len; lia). now rewrite firstn_O, app_nil_r. }
      assert (length b - j' <= k)%nat; [|lia]. apply (pae_max b END 16); [lia|]. apply ends_iff. exists (firstn j' b). rewrite <- Q. symmetry. apply firstn_skipn. }
    unfold bytes, text in *. clearbody k. destruct (Nat.eqb_spec k 0) as [K0|K0]; [|destruct (Nat.eqb_spec k (length b)) as [K1|K1]]; injection E as <- <- <-; cbn [framed map concat app].
    + rewrite K0 in *. cbn [firstn] in *. rewrite app_nil_r in Eq. subst q. rewrite concat_app. cbn [concat]. rewrite !app_nil_r. split; [reflexivity|]. split; [constructor|]. split; [exact Safe|cbn; lia].
    + assert (q = []) by (destruct q; [reflexivity|cbn in Lq; lia]). subst q. cbn [app] in Eq. rewrite app_nil_r in Safe. rewrite <- Eq in Safe. split; [reflexivity|]. split; [constructor|]. split; [exact Safe|lia].
    + assert (E1 : firstn (length b - k) b = q).
      { replace (length b - k)%nat with (length q) by lia. rewrite Eq at 1. rewrite firstn_app, Nat.sub_diag, firstn_O, app_nil_r. apply firstn_all. }
      assert (E2 : skipn (length b - k) b = firstn k END).
      { replace (length b - k)%nat with (length q) by lia. rewrite Eq at 1. rewrite skipn_app, skipn_all, Nat.sub_diag. reflexivity. }
      rewrite E1, E2, concat_app. cbn [concat]. rewrite app_nil_r. split; [rewrite <- app_assoc; now rewrite <- Eq|]. split; [constructor|]. split; [exact Safe|lia].
Qed.

(** ** the way out *)
Definition clean (o : outq) : Prop := o_conn o = true /\ ~ In None (o_fifo o).
Lemma pieces_concat obs : (0 < obs)%nat -> forall fuel d, (length d <= fuel)%nat -> concat (pieces fuel obs d) = d.
Proof.
  intros O. induction fuel as [|fuel IH]; intros d L; cbn [pieces]; [apply app_nil_r|]. destruct (Nat.ltb_spec obs (length d)); cbn [concat]; [|apply app_nil_r].
  rewrite IH by (rewrite skipn_length; lia). apply firstn_skipn.
Qed.
Lemma pending_some l r : pending (map Some l ++ r) = concat l ++ pending r.
Proof. induction l as [|x l IH]; [reflexivity|]. cbn. now rewrite IH, <- app_assoc. Qed.
Lemma pending_app l r : ~ In None l -> pending (l ++ r) = pending l ++ pending r.
Proof.
  induction l as [|x l IH]; intros N; [reflexivity|]. destruct x as [x|]; [|destruct N; now left]. cbn. rewrite IH, <- app_assoc; [reflexivity|]. intros I. apply N. now right.
Qed.
Lemma pending_closed l r : In None l -> pending (l ++ r) = pending l.
Proof.
  induction l as [|x l IH]; intros I; [destruct I|]. destruct x as [x|]; [|reflexivity]. cbn. rewrite IH; [reflexivity|]. destruct I as [I|I]; [discriminate|exact I].
Qed.

Lemma firstn_firstn_skipn {A} n k (l : list A) : (n <= length (firstn k l))%nat -> firstn n (firstn k l) ++ skipn n l = l.
Proof. intros L. rewrite firstn_firstn. rewrite firstn_length in L. rewrite Nat.min_l by lia. apply firstn_skipn. Qed.

Lemma send_total obs k o : o_sent (initiate_send obs k o) ++ unsent (initiate_send obs k o) = o_sent o ++ unsent o.
Proof.
  unfold initiate_send, unsent. destruct (o_conn o) eqn:C; cbn [negb]; [|now rewrite C]. destruct (o_fifo o) as [|[first|] r] eqn:Q.
  - now rewrite C, Q.
  - destruct first as [|x f]; [reflexivity|]. set (first := x :: f) in *. set (n := Nat.min k (length (firstn obs first))). destruct (Nat.eqb_spec n 0); [now rewrite C, Q|].
    cbn [o_conn o_sent o_fifo]. rewrite <- app_assoc. f_equal. destruct (Nat.ltb_spec n (length (firstn obs first))); cbn [orb].
    + cbn [pending]. rewrite app_assoc. f_equal. apply firstn_firstn_skipn. lia.
    + assert (Nn : n = length (firstn obs first)) by lia. rewrite Nn, firstn_all. destruct (Nat.ltb_spec obs (length first)).
      * cbn [pending]. rewrite app_assoc. f_equal. rewrite <- (firstn_all (firstn obs first)) at 1. apply firstn_firstn_skipn. lia.
      * cbn [pending]. f_equal. apply firstn_all2. lia.
  - reflexivity.
Qed.
Lemma send_clean obs k o : clean o -> clean (initiate_send obs k o).
Proof.
  unfold initiate_send, clean. intros [C N]. rewrite C. cbn [negb]. destruct (o_fifo o) as [|[first|] r] eqn:Q; [now rewrite Q|..].
  - destruct first as [|x f]; [split; [reflexivity|]; cbn; intros I; apply N; now right|]. destruct (Nat.eqb _ 0); [now rewrite Q|]. cbn [o_conn o_fifo]. split; [reflexivity|].
    destruct (_ || _); [intros [I|I]; [discriminate|]; apply N; now right|intros I; apply N; now right].
  - destruct N. now left.
Qed.
(** closed, or closing after what is in the queue *)
Definition closing (o : outq) : Prop := o_conn o = false \/ In None (o_fifo o).
Lemma send_closing obs k o : closing o -> closing (initiate_send obs k o).
Proof.
  unfold initiate_send, closing. destruct (o_conn o) eqn:C; cbn [negb]; [|auto]. intros [X|I]; [discriminate|]. destruct (o_fifo o) as [|[first|] r] eqn:Q; [destruct I|..].
  - destruct I as [I|I]; [discriminate|]. destruct first as [|x f]; [right; exact I|]. destruct (Nat.eqb _ 0); [right; rewrite Q; now right|]. right. cbn [o_fifo].
    destruct (_ || _); [now right|exact I].
  - now left.
Qed.

Lemma push_clean obs d k o : (0 < obs)%nat -> clean o -> clean (push obs d k o) /\ o_sent (push obs d k o) ++ unsent (push obs d k o) = o_sent o ++ unsent o ++ d.
Proof.
  intros O [C N]. unfold push. split.
  - apply send_clean. split; [exact C|]. cbn. rewrite in_app_iff, in_map_iff. intros [I|(x & E & _)]; [auto|discriminate].
  - rewrite send_total. unfold unsent. cbn [o_sent o_conn o_fifo]. rewrite C. rewrite pending_app by exact N. rewrite <- (app_nil_r (map Some _)), pending_some. cbn. rewrite app_nil_r.
    rewrite pieces_concat by (auto with arith). reflexivity.
Qed.
Lemma push_closing obs d k o : closing o -> closing (push obs d k o) /\ o_sent (push obs d k o) ++ unsent (push obs d k o) = o_sent o ++ unsent o.
Proof.
  intros H. unfold push. split.
  - apply send_closing. destruct H as [H|H]; [left; exact H|right; cbn; apply in_or_app; now left].
  - rewrite send_total. unfold unsent. cbn [o_sent o_conn o_fifo]. destruct (o_conn o) eqn:C; [|reflexivity]. destruct H as [H|H]; [congruence|]. now rewrite pending_closed.
Qed.

Section Server.
Context {T Q R : Type}.
Context (loads : bytes -> option Q) (dumps : R -> option bytes) (error : bytes -> bytes).
Context (proceed : T -> Q -> T * R).
Context (obs : nat) (Hobs : (0 < obs)%nat).
Notation ans := (answer loads dumps error proceed).
Notation found := (found loads dumps error proceed obs).
Notation conn_step := (conn_step loads dumps error proceed obs).
Notation conn_run := (conn_run loads dumps error proceed obs).

Lemma found_closing ms : forall ks t o, closing o ->
  closing (snd (found ms ks t o)) /\ o_sent (snd (found ms ks t o)) ++ unsent (snd (found ms ks t o)) = o_sent o ++ unsent o.
Proof.
  induction ms as [|m ms IH]; intros ks t o C; cbn [Proto_Model.found]; [auto|]. destruct (eqb m CLOSE).
  - destruct (IH ks t (close_when_done o)) as [I1 I2].
    + unfold closing, close_when_done in *. cbn. destruct C as [C|C]; [auto|right; apply in_or_app; now left].
    + split; [exact I1|]. rewrite I2. unfold close_when_done, unsent. cbn. destruct (o_conn o) eqn:X; [|reflexivity]. destruct C as [C|C]; [congruence|]. now rewrite pending_closed.
  - destruct (ans t m) as [t' a]. destruct (push_closing obs (a ++ END) (hd 0%nat ks) o C) as [P1 P2].
    destruct (IH (tl ks) t' _ P1) as [I1 I2]. split; [exact I1|]. now rewrite I2, P2.
Qed.
Lemma found_clean ms : forall ks t o, clean o ->
  o_sent (snd (found ms ks t o)) ++ unsent (snd (found ms ks t o)) = o_sent o ++ unsent o ++ framed (answers ans t (until_close ms)) /\
  (~ In CLOSE ms -> clean (snd (found ms ks t o)) /\ fst (found ms ks t o) = after ans t ms) /\
  (In CLOSE ms -> closing (snd (found ms ks t o))).
Proof.
  induction ms as [|m ms IH]; intros ks t o C; cbn [Proto_Model.found until_close].
  - cbn. rewrite app_nil_r. repeat split; try tauto; apply C.
  - destruct (eqb_spec m CLOSE) as [->|N].
    + assert (Cl : closing (close_when_done o)) by (right; cbn; apply in_or_app; right; now left).
      destruct (found_closing ms ks t _ Cl) as [F1 F2]. split; [|split].
      * rewrite F2. cbn [answers]. unfold framed. cbn. rewrite app_nil_r. unfold close_when_done, unsent. cbn. destruct C as [-> C]. rewrite pending_app by exact C. cbn. now rewrite app_nil_r.
      * intros X. destruct X. now left.
      * intros _. exact F1.
    + cbn [answers after]. destruct (ans t m) as [t' a] eqn:A. cbn [fst snd]. destruct (push_clean obs (a ++ END) (hd 0%nat ks) o Hobs C) as [P1 P2].
      destruct (IH (tl ks) t' _ P1) as (I1 & I2 & I3). split; [|split].
      * rewrite I1. rewrite app_assoc, P2. rewrite framed_cons, <- !app_assoc. reflexivity.
      * intros X. apply I2. intros Y. apply X. now right.
      * intros [X|X]; [congruence|auto].
Qed.

Lemma until_close_app ms ms' : In CLOSE ms -> until_close (ms ++ ms') = until_close ms.
Proof. induction ms as [|m ms IH]; intros I; [destruct I|]. cbn [until_close app]. destruct (eqb_spec m CLOSE); [reflexivity|]. f_equal. apply IH. destruct I; [contradiction|assumption]. Qed.
Lemma until_close_app2 ms ms' : ~ In CLOSE ms -> until_close (ms ++ ms') = ms ++ until_close ms'.
Proof.
  induction ms as [|m ms IH]; intros N; [reflexivity|]. cbn [until_close app]. destruct (eqb_spec m CLOSE) as [->|]; [destruct N; now left|]. f_equal. apply IH. intros I. apply N. now right.
Qed.
Lemma until_close_id ms : ~ In CLOSE ms -> until_close ms = ms.
Proof. intros N. rewrite <- (app_nil_r ms) at 1. rewrite until_close_app2 by exact N. cbn. apply app_nil_r. Qed.
Lemma answers_app t a b : answers ans t (a ++ b) = answers ans t a ++ answers ans (after ans t a) b.
Proof. revert t. induction a as [|m a IH]; intros t; [reflexivity|]. cbn. now rewrite IH. Qed.
Lemma after_app t a b : after ans t (a ++ b) = after ans (after ans t a) b.
Proof. revert t. induction a as [|m a IH]; intros t; [reflexivity|]. cbn. now rewrite IH. Qed.

(** The state after the events of a stream whose messages are [ms]. *)
Definition conn_ok (t0 : T) (ms : list bytes) (st : T * conn) : Prop :=
  let '(t, c) := st in
  o_sent (c_out c) ++ unsent (c_out c) = framed (answers ans t0 (until_close ms)) /\
  (~ In CLOSE ms -> clean (c_out c) /\ t = after ans t0 ms) /\
  (In CLOSE ms -> closing (c_out c)).
Lemma conn_steps t0 es : exists ms rest, chunks_in es = framed ms ++ rest /\ Forall (fun m => ~ has_end m) ms /\ ~ has_end rest /\
  conn_ok t0 ms (conn_run t0 es) /\
  (o_conn (c_out (snd (conn_run t0 es))) = true -> let c := snd (conn_run t0 es) in
     rest = concat (c_parts c) ++ c_in c /\ safe (concat (c_parts c)) (c_in c) /\ (length (c_in c) < 17)%nat).
Proof.
  induction es as [|e es IH] using rev_ind.
  - exists [], []. cbn. split; [reflexivity|]. split; [constructor|]. split; [intros (a & b & E); destruct a; discriminate|]. split.
    + unfold conn_ok, framed. cbn. repeat split; tauto.
    + intros _. split; [reflexivity|]. split; [apply safe_nil|lia].
  - destruct IH as (ms & rest & E & F & N & K & J). unfold Proto_Model.conn_run in *. rewrite fold_left_app. cbn [fold_left].
    destruct (fold_left conn_step es (t0, conn_init)) as [t c]. cbn [snd] in *. unfold Proto_Model.conn_step.
    assert (Ec : chunks_in (es ++ [e]) = chunks_in es ++ match e with Recv c _ => c | Writable _ => [] end) by (unfold chunks_in; rewrite map_app, concat_app; cbn; now rewrite app_nil_r).
    destruct (o_conn (c_out c)) eqn:Cn; cbn [negb].
    + specialize (J eq_refl). cbn zeta in J. destruct J as (J1 & J2 & J3). destruct e as [chunk ks|k].
      * destruct (read_loop (S (length (c_in c ++ chunk))) (c_in c ++ chunk) (c_parts c)) as [[b' parts'] ms'] eqn:RL.
        apply read_loop_spec in RL as (R1 & R2 & R3 & R4); [|lia|now apply safe_more].
        exists (ms ++ ms'), (concat parts' ++ b'). destruct K as (K1 & K2 & K3).
        pose proof (found_clean ms' ks t (c_out c)) as FC. pose proof (found_closing ms' ks t (c_out c)) as FD.
        destruct (found ms' ks t (c_out c)) as [t' o'] eqn:Fo. cbn [fst snd] in FC, FD. split; [|split; [|split; [|split]]].
        -- rewrite Ec, E, J1, framed_app, <- !app_assoc. f_equal. exact R1.
        -- apply Forall_app. auto.
        -- now apply safe_no_end.
        -- unfold conn_ok. cbn [c_out]. assert (Dec : In CLOSE ms \/ ~ In CLOSE ms).
           { destruct (in_dec (fun a b => match eqb_spec a b with ReflectT _ e => left e | ReflectF _ n => right n end) CLOSE ms); auto. }
           destruct Dec as [D|D].
           ++ specialize (FD (K3 D)). rewrite until_close_app by exact D. destruct FD as [FD1 FD2]. split; [congruence|]. split; [intros X; destruct X; apply in_or_app; now left|auto].
           ++ destruct (K2 D) as [K4 ->]. destruct (FC K4) as (F1 & F2 & F3). rewrite until_close_app2 by exact D. split; [|split].
              ** rewrite F1, answers_app, framed_app, app_assoc, K1. rewrite (until_close_id ms) by exact D. reflexivity.
              ** intros X. rewrite after_app. apply F2. intros Y. apply X. apply in_or_app. now right.
              ** intros X. apply in_app_iff in X as [X|X]; [contradiction|auto].
        -- intros _. cbn. auto.
      * exists ms, rest. rewrite Ec, app_nil_r. split; [exact E|]. split; [exact F|]. split; [exact N|]. destruct K as (K1 & K2 & K3). split.
        -- unfold conn_ok. cbn [c_out]. rewrite send_total. split; [exact K1|]. split; [intros X; destruct (K2 X); split; [now apply send_clean|assumption]|intros X; now apply send_closing, K3].
        -- intros _. cbn. auto.
    + assert (D : In CLOSE ms).
      { destruct (in_dec (fun a b => match eqb_spec a b with ReflectT _ e => left e | ReflectF _ n => right n end) CLOSE ms) as [D|D]; [exact D|].
        destruct K as (_ & K2 & _). destruct (K2 D) as [[X _] _]. congruence. }
      (* the rest of the stream is not read *)
      set (x := match e with Recv c _ => c | Writable _ => [] end) in *.
      destruct (read_loop (S (length (rest ++ x))) (rest ++ x) []) as [[b' parts'] ms'] eqn:RL.
      apply read_loop_spec in RL as (R1 & R2 & R3 & R4); [|lia|apply safe_nil]. cbn [concat app] in R1.
      exists (ms ++ ms'), (concat parts' ++ b'). split; [|split; [|split; [|split]]].
      * rewrite Ec, E, framed_app, <- !app_assoc. f_equal. exact R1.
      * apply Forall_app. auto.
      * now apply safe_no_end.
      * destruct K as (K1 & K2 & K3). unfold conn_ok. rewrite until_close_app by exact D. split; [exact K1|]. split; [intros X; destruct X; apply in_or_app; now left|auto].
      * cbn [snd]. congruence.
Qed.

Lemma conn_spec t0 es ms rest : chunks_in es = framed ms ++ rest -> Forall (fun m => ~ has_end m) ms -> ~ has_end rest -> conn_ok t0 ms (conn_run t0 es).
Proof.
  intros E F N. destruct (conn_steps t0 es) as (ms' & rest' & E' & F' & N' & K & _). rewrite E in E'. apply framed_unique in E' as [-> ->]; auto.
Qed.

(** ** draining *)
Fixpoint size (l : list (option bytes)) : nat := match l with [] => 0 | Some d :: r => S (length d + size r) | None :: r => S (size r) end.
Lemma send_less k o : (0 < k)%nat -> o_conn (initiate_send obs k o) = false \/ o_fifo o = [] /\ initiate_send obs k o = o \/ (size (o_fifo (initiate_send obs k o)) < size (o_fifo o))%nat.
Proof.
  intros K. unfold initiate_send. destruct (o_conn o) eqn:C; cbn [negb]; [|auto]. destruct (o_fifo o) as [|[first|] r] eqn:Qf; [auto|..].
  - destruct first as [|x f]; [right; right; cbn; lia|]. set (first := x :: f) in *. assert (Lf : (0 < length first)%nat) by (cbn; lia). clearbody first.
    assert (Ln : (0 < length (firstn obs first))%nat) by (rewrite firstn_length; lia).
    destruct (Nat.eqb_spec (Nat.min k (length (firstn obs first))) 0); [lia|]. right. right. cbn [o_fifo]. destruct (_ || _); cbn [size]; [|lia]. rewrite skipn_length. lia.
  - left. reflexivity.
Qed.
Lemma drain : forall ks t c, Forall (fun k => 0 < k)%nat ks -> (size (o_fifo (c_out c)) <= length ks)%nat ->
  unsent (c_out (snd (fold_left conn_step (map Writable ks) (t, c)))) = [] /\
  (closing (c_out (snd (fold_left conn_step (map Writable ks) (t, c)))) -> o_conn (c_out (snd (fold_left conn_step (map Writable ks) (t, c)))) = false).
Proof.
  induction ks as [|k ks IH]; intros t c F L.
  - cbn [length] in L. cbn. unfold unsent, closing. destruct (o_fifo (c_out c)) as [|[x|] r]; cbn in L; try lia. cbn. destruct (o_conn (c_out c)); split; auto. intros [X|[]]; auto.
  - inversion F as [|? ? Fk Fks]; subst. cbn [map fold_left]. assert (Stay : forall ks c, o_conn (c_out c) = false -> fold_left conn_step (map Writable ks) (t, c) = (t, c)).
    { clear. induction ks as [|k ks IH]; intros c C; [reflexivity|]. cbn [map fold_left Proto_Model.conn_step]. rewrite C. cbn [negb]. now apply IH. }
    cbn [Proto_Model.conn_step]. destruct (o_conn (c_out c)) eqn:C; cbn [negb].
    + destruct (send_less k (c_out c) Fk) as [X|[[X Y]|X]].
      * rewrite Stay by exact X. cbn [snd c_out]. unfold unsent. rewrite X. auto.
      * apply IH; [exact Fks|]. cbn [c_out]. rewrite Y, X. cbn. lia.
      * apply IH; [exact Fks|]. cbn [c_out length] in *. lia.
    + rewrite Stay by exact C. cbn. unfold unsent. rewrite C. auto.
Qed.
Lemma chunks_writable es ks : chunks_in (es ++ map Writable ks) = chunks_in es.
Proof. unfold chunks_in. rewrite map_app, concat_app. assert (concat (map (fun e => match e with Recv c _ => c | Writable _ => [] end) (map Writable ks)) = []) as -> by (induction ks; auto). apply app_nil_r. Qed.
Lemma delivered t0 es ms rest : chunks_in es = framed ms ++ rest -> Forall (fun m => ~ has_end m) ms -> ~ has_end rest ->
  exists n, forall ks, Forall (fun k => 0 < k)%nat ks -> (n <= length ks)%nat ->
    let o := c_out (snd (conn_run t0 (es ++ map Writable ks))) in
    o_sent o = framed (answers ans t0 (until_close ms)) /\ (o_conn o = false <-> In CLOSE ms).
Proof.
  intros E F N. exists (size (o_fifo (c_out (snd (conn_run t0 es))))). intros ks Fk L.
  assert (E' : chunks_in (es ++ map Writable ks) = framed ms ++ rest) by now rewrite chunks_writable.
  pose proof (conn_spec t0 _ ms rest E' F N) as K. unfold Proto_Model.conn_run in *. rewrite fold_left_app in *.
  destruct (fold_left conn_step es (t0, conn_init)) as [t c]. cbn [snd] in L. destruct (drain ks t c Fk L) as [D1 D2].
  destruct (fold_left conn_step (map Writable ks) (t, c)) as [t' c']. cbn [snd] in *. destruct K as (K1 & K2 & K3). cbn zeta. split.
  - rewrite D1, app_nil_r in K1. exact K1.
  - split; [|auto]. intros C. destruct (in_dec (fun a b => match eqb_spec a b with ReflectT _ e => left e | ReflectF _ n => right n end) CLOSE ms) as [D|D]; [exact D|].
    destruct (K2 D) as [[X _] _]. congruence.
Qed.
End Server.

Lemma answer_reply {T Q R} (loads : bytes -> option Q) (dumps : R -> option bytes) error (proceed : T -> Q -> T * R) t m :
  answer loads dumps error proceed t m = reply loads dumps error proceed t m.
Proof. unfold answer, reply. destruct (loads m) as [q|]; [|reflexivity]. destruct (proceed t q); reflexivity. Qed.
Lemma answers_ext {T} (f g : T -> bytes -> T * bytes) : (forall t m, f t m = g t m) -> forall ms t, answers f t ms = answers g t ms /\ after f t ms = after g t ms.
Proof. intros E. induction ms as [|m ms IH]; intros t; [auto|]. cbn. rewrite E. destruct (IH (fst (g t m))) as [-> ->]. auto. Qed.

(** ** the client *)
Lemma find_has_end m : (exists i, find END m = Some i) <-> has_end m.
Proof.
  split; [intros [i F]; apply find_some in F as ([r E] & _); exists (firstn i m), r; exact E|]. intros H. destruct (find END m) eqn:F; [eauto|].
  pose proof (find_none END END_nonempty _ F). apply has_end_at in H as (j & _ & S). congruence.
Qed.
Lemma last_n_suffix {A} n (l : list A) : exists a, l = a ++ last_n n l.
Proof. unfold last_n. exists (firstn (length l - n) l). symmetry. apply firstn_skipn. Qed.
Lemma tail_has_end_has m : tail_has_end m = true -> has_end m.
Proof.
  unfold tail_has_end. destruct (find END (last_n 32 m)) eqn:F; [|discriminate]. intros _. destruct (proj1 (find_has_end (last_n 32 m))) as (a & b & E); [eauto|].
  destruct (last_n_suffix 32 m) as [q Eq]. exists (q ++ a), b. rewrite Eq, E, <- app_assoc. reflexivity.
Qed.
Lemma tail_has_end_full p : tail_has_end (p ++ END) = true.
Proof.
  unfold tail_has_end. assert (H : has_end (last_n 32 (p ++ END))).
  { unfold last_n. rewrite app_length, END_len. rewrite skipn_app. replace (length p + 17 - 32 - length p)%nat with 0%nat by lia. exists (skipn (length p + 17 - 32) p), []. now rewrite app_nil_r. }
  apply find_has_end in H as [i ->]. reflexivity.
Qed.
(** where a terminator can stand in a framed message *)
Lemma end_place p a b c : ~ has_end p -> (a ++ END ++ b) ++ c = p ++ END -> a = p /\ b = [] /\ c = [].
Proof.
  intros N E. rewrite <- !app_assoc in E. assert (La : (length p <= length a)%nat).
  { destruct (Nat.leb_spec (length p) (length a)); [assumption|]. exfalso. pose proof (find_frame p [] N) as F. rewrite app_nil_r in F. apply find_some in F as (_ & _ & F).
    specialize (F (length a) H). rewrite <- E in F. rewrite skipn_app, skipn_all, Nat.sub_diag in F. cbn [skipn app] in F. assert (starts END (END ++ b ++ c) = true) by (apply starts_iff; eauto). congruence. }
  assert (Ll := f_equal (@length ascii) E). rewrite !app_length, END_len in Ll.
  destruct b; [|cbn in Ll; lia]. destruct c; [|cbn in Ll; lia]. split; [|auto]. cbn [app] in E. rewrite app_nil_r in E. apply app_inv_tail in E. exact E.
Qed.
Lemma receive_whole p : ~ has_end p -> forall chunks msg, Forall (fun c => c <> []) chunks -> msg ++ concat chunks = p ++ END ->
  receive chunks msg = Got p \/ receive chunks msg = Got (p ++ END).
Proof.
  intros N. induction chunks as [|c r IH]; intros msg F E; cbn [receive].
  - cbn in E. rewrite app_nil_r in E. rewrite E, tail_has_end_full. auto.
  - destruct (tail_has_end msg) eqn:T.
    + apply tail_has_end_has in T as (a & b & T). rewrite T in E. apply end_place in E as (-> & -> & E); [|exact N]. rewrite T, app_nil_r. auto.
    + inversion F as [|? ? Fc Fr]; subst. match goal with |- context [eqb c []] => destruct (eqb_spec (c : bytes) []) end; [contradiction|]. destruct (eqb_spec (c : bytes) END) as [->|].
      * cbn [concat] in E. destruct (end_place p msg (concat r) []) as (-> & _); [exact N|now rewrite app_nil_r|]. auto.
      * apply IH; [exact Fr|]. rewrite <- app_assoc. exact E.
Qed.
Lemma receive_part p : ~ has_end p -> forall chunks msg x, Forall (fun c => c <> []) chunks -> x <> [] -> (msg ++ concat chunks) ++ x = p ++ END ->
  receive chunks msg = Waiting /\ receive (chunks ++ [[]]) msg = Reset.
Proof.
  intros N. induction chunks as [|c r IH]; intros msg x F X E; cbn [receive app].
  - cbn in E. rewrite app_nil_r in E. destruct (tail_has_end msg) eqn:T; [|cbn; auto].
    apply tail_has_end_has in T as (a & b & T). rewrite T in E. apply end_place in E as (_ & _ & E); [contradiction|exact N].
  - destruct (tail_has_end msg) eqn:T.
    + apply tail_has_end_has in T as (a & b & T). rewrite T in E. rewrite <- app_assoc in E. apply end_place in E as (_ & _ & E); [|exact N]. apply app_eq_nil in E as [_ E]. contradiction.
    + inversion F as [|? ? Fc Fr]; subst. match goal with |- context [eqb c []] => destruct (eqb_spec (c : bytes) []) end; [contradiction|]. destruct (eqb_spec (c : bytes) END) as [->|].
      * cbn [concat] in E. rewrite <- !app_assoc in E. destruct (end_place p msg (concat r ++ x) []) as (_ & Y & _); [exact N|rewrite app_nil_r; exact E|]. apply app_eq_nil in Y as [_ Y]. contradiction.
      * apply (IH _ x); [exact Fr|exact X|]. rewrite <- E. cbn [concat]. now rewrite <- !app_assoc.
Qed.
