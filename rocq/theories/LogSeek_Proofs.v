(** The search for a time in a log. *)
From Verif Require Import Base Text LogFile_Model LogFile_Proofs LogFile_Proofs2 LogSeek_Model LogSeek_Spec.
From Coq Require Import Lia List ZifyBool ZifyNat.
Local Open Scope nat_scope.
Import ListNotations.

Section Seek.
Context (d : bytes) (dt : bytes -> stamp) (date : Z).

(** between two lines, or at the end *)
Definition at_line (q : nat) : Prop := q = 0 \/ nth_error d (q - 1) = Some LF \/ length d <= q.
Lemma at_line_begins : forall q, at_line q -> q < length d -> begins d q.
Proof. intros q [H|[H|H]] L; split; auto; lia. Qed.
Lemma nth_skipn : forall (l : bytes) q k, nth_error (skipn q l) k = nth_error l (q + k).
Proof. induction l as [|c l IH]; intros [|q] k; cbn; auto. now destruct k. Qed.

Lemma read_raw_cases : forall q, q < length d ->
  (exists y rest, skipn q d = (y ++ [LF]) ++ rest /\ ~ In LF y /\ read_raw d q = y ++ [LF]) \/
  (~ In LF (skipn q d) /\ read_raw d q = skipn q d).
Proof.
  intros q L. unfold read_raw. destruct (in_LF_dec (skipn q d)) as [I|N].
  - left. destruct (raw_line_split _ I) as (x & r & E & Nx & R). exists x, r. rewrite R, E, <- app_assoc. auto.
  - right. now rewrite raw_line_no.
Qed.
Lemma read_raw_end : forall q, length d <= q -> read_raw d q = [].
Proof. intros q L. unfold read_raw. now rewrite skipn_all2. Qed.
Lemma read_raw_some : forall q, q < length d -> read_raw d q <> [].
Proof.
  intros q L. destruct (read_raw_cases q L) as [(y & r & _ & _ & ->)|[_ ->]]; [now destruct y|].
  intros E. apply (f_equal (@length ascii)) in E. rewrite skipn_length in E. cbn in E. lia.
Qed.
Lemma after_at_line : forall q, at_line (q + length (read_raw d q)) \/ length d < q.
Proof.
  intros q. destruct (Nat.lt_ge_cases q (length d)) as [L|L].
  - left. destruct (read_raw_cases q L) as [(y & r & E & _ & ->)|[_ ->]].
    + right. left. rewrite app_length. cbn. replace (q + (length y + 1) - 1) with (q + length y) by lia.
      rewrite <- nth_skipn, E, <- app_assoc, nth_error_app2, Nat.sub_diag by lia. reflexivity.
    + right. right. rewrite skipn_length. lia.
  - left. rewrite read_raw_end by assumption. right. right. cbn. lia.
Qed.
Lemma read_len : forall q, q <= length d -> q + length (read_raw d q) <= length d.
Proof.
  intros q L. destruct (raw_line_prefix (skipn q d)) as [r E]. unfold read_raw.
  apply (f_equal (@length ascii)) in E. rewrite app_length, skipn_length in E. lia.
Qed.
Lemma seek_at_line : forall o, at_line (seek d o).
Proof.
  intros o. unfold seek. destruct (Nat.eqb_spec o 0); [now left|].
  destruct (after_at_line o) as [H|H]; [exact H|]. rewrite read_raw_end by lia. right. right. cbn. lia.
Qed.
(** no line begins within a line *)
Lemma no_begin : forall p q, at_line p -> begins d q -> q < p + length (read_raw d p) -> q <= p.
Proof.
  intros p q A [L B] H. destruct (Nat.le_gt_cases q p) as [|G]; [assumption|].
  destruct B as [->|B]; [lia|].
  assert (Lp : p < length d) by lia.
  replace (q - 1) with (p + (q - 1 - p)) in B by lia. rewrite <- nth_skipn in B.
  destruct (read_raw_cases p Lp) as [(y & r & E & N & R)|[N R]].
  - rewrite R, app_length in H. cbn in H. rewrite E, <- app_assoc, nth_error_app1 in B by lia. apply nth_error_In in B. contradiction.
  - apply nth_error_In in B. contradiction.
Qed.
Lemma timed_read : forall q t, at_line q -> q < length d -> dt (read_raw d q) = Match (Some t) -> timed d dt q t.
Proof.
  intros q t A L T. split; [now apply at_line_begins|].
  destruct (read_raw_cases q L) as [(y & r & E & N & R)|[N R]]; rewrite R in T.
  - exists (y ++ [LF]), r. repeat (split; [assumption|]). left. eauto.
  - exists (skipn q d), []. rewrite app_nil_r. auto.
Qed.

(** ** a probe *)
Lemma probe_time : forall n b sp cur pos nextp pos' nextp' tell t,
  at_line cur -> (forall x, nextp = Some x -> x <= cur) ->
  probe d dt n b sp cur pos nextp = (pos', nextp', tell, Some t) ->
  exists q, timed d dt q t /\ (forall x, nextp' = Some x -> x <= q) /\ (forall q', begins d q' -> q' < tell -> q' <= q).
Proof.
  induction n as [|n IH]; intros b sp cur pos nextp pos' nextp' tell t A Hn P; cbn [probe] in P.
  all: destruct (read_raw d cur) as [|c r] eqn:R; [discriminate|]; rewrite <- R in *.
  all: assert (L : cur < length d) by (destruct (Nat.lt_ge_cases cur (length d)) as [|G]; [assumption|]; rewrite read_raw_end in R by assumption; discriminate).
  all: destruct (after_at_line cur) as [A'|]; [|lia].
  all: destruct (dt (read_raw d cur)) as [|[t1|]] eqn:D.
  - destruct (b <? cur + length (read_raw d cur)); discriminate.
  - injection P as <- <- <- <-. exists cur. split; [now apply timed_read|]. split; [exact Hn|]. intros q' B Q. now apply no_begin.
  - discriminate.
  - destruct (b <? cur + length (read_raw d cur)); [discriminate|]. eapply IH in P; eauto. intros x X. injection X as <-. lia.
  - injection P as <- <- <- <-. exists cur. split; [now apply timed_read|]. split; [exact Hn|]. intros q' B Q. now apply no_begin.
  - eapply IH in P; eauto. intros x X. apply Hn in X. lia.
Qed.

Definition safe (start m : nat) : Prop := forall q t, timed d dt q t -> start <= q < m -> (t < date)%Z.
Lemma narrow_safe : forall start a b p pos a' b', ordered d dt -> at_line p -> safe start a ->
  narrow d dt date a b p = (pos, a', b') -> safe start a' /\ a <= a' /\ b' <= b.
Proof.
  intros start a b p pos a' b' O A S N. unfold narrow in N.
  destruct (probe d dt 5 b p p p None) as [[[pos1 nextp] tell] t] eqn:P.
  destruct t as [t|]; [|injection N as <- <- <-; auto].
  apply probe_time in P; [|exact A|discriminate]. destruct P as (q & T & Hn & Ht).
  destruct (Z.leb_spec date t) as [Le|Lt].
  - injection N as <- <- <-. split; [exact S|]. split; [lia|]. destruct (_ <? b) eqn:X; lia.
  - injection N as <- <- <-. 
    assert (Q : forall q', begins d q' -> q' < match nextp with Some n => n | None => tell end -> q' <= q).
    { intros q' B H. destruct nextp as [x|]; [specialize (Hn x eq_refl); lia|auto]. }
    destruct (a <? match nextp with Some n => n | None => tell end) eqn:X.
    + split; [|lia]. intros q' t' T' H. assert (L : q' <= q) by (apply Q; [apply T'|lia]). pose proof (O _ _ _ _ L T' T). lia.
    + split; [exact S|lia].
Qed.

Lemma loop_safe : forall fuel start s p, ordered d dt -> safe start (minp s) -> start <= minp s ->
  loop d dt date fuel s = Some p -> safe start p /\ start <= p.
Proof.
  induction fuel as [|fuel IH]; intros start s p O S Le H; [discriminate|]. cbn [loop] in H. unfold turn in H.
  destruct (minp s <? maxp s) eqn:M; [|injection H as <-; auto].
  set (p0 := match try_pos s with Some p => p | None => minp s + (maxp s - minp s) / 2 end) in *.
  destruct (narrow d dt date (minp s) (maxp s) (seek d (p0 - 2))) as [[pos a] b] eqn:N.
  destruct (narrow_safe start _ _ _ _ _ _ O (seek_at_line _) S N) as (S' & La & Lb).
  destruct (eqb (Some pos) (last_pos s)).
  - destruct (movecntr s - 1 =? 0); [injection H as <-; split; [exact S'|lia]|].
    destruct (negb (eqb (Some a) (last_pos s))); [|injection H as <-; split; [exact S'|lia]].
    eapply IH in H; eauto. cbn. lia.
  - eapply IH in H; eauto. cbn. lia.
Qed.

(** ** where it ends *)
Definition place_ok (start p : nat) : Prop := p = start \/ begins d p \/ p = length d.
Lemma place_ok_at : forall start q, at_line q -> q <= length d -> place_ok start q.
Proof.
  intros start q A L. unfold place_ok. destruct (Nat.eq_dec q (length d)); [auto|]. right. left. apply at_line_begins; [assumption|lia].
Qed.
Lemma seek_le : forall o, o <= length d -> seek d o <= length d.
Proof. intros o L. unfold seek. destruct (o =? 0); [lia|]. now apply read_len. Qed.
Lemma probe_place : forall n b sp cur pos nextp pos' nextp' tell t,
  at_line cur -> cur <= length d -> (forall x, nextp = Some x -> at_line x /\ x <= length d) ->
  probe d dt n b sp cur pos nextp = (pos', nextp', tell, t) ->
  (at_line tell /\ tell <= length d) /\ (forall x, nextp' = Some x -> at_line x /\ x <= length d).
Proof.
  induction n as [|n IH]; intros b sp cur pos nextp pos' nextp' tell t A L Hn P; cbn [probe] in P.
  all: destruct (read_raw d cur) as [|c r] eqn:R; [injection P as <- <- <- <-; auto|]; rewrite <- R in *.
  all: assert (A' : at_line (cur + length (read_raw d cur)) /\ cur + length (read_raw d cur) <= length d)
    by (split; [destruct (after_at_line cur); [assumption|lia]|now apply read_len]).
  all: destruct (dt (read_raw d cur)) as [|[t1|]] eqn:D.
  - destruct (b <? cur + length (read_raw d cur)); injection P as <- <- <- <-; split; auto; intros x X; injection X as <-; exact A'.
  - injection P as <- <- <- <-. auto.
  - injection P as <- <- <- <-. auto.
  - destruct (b <? cur + length (read_raw d cur)).
    + injection P as <- <- <- <-; split; auto; intros x X; injection X as <-; exact A'.
    + eapply IH in P; [exact P|apply A'|apply A'|]. intros x X. injection X as <-. exact A'.
  - injection P as <- <- <- <-. auto.
  - eapply IH in P; [exact P|apply A'|apply A'|exact Hn].
Qed.
Lemma loop_place : forall fuel start s p, place_ok start (minp s) -> maxp s <= length d -> (forall x, try_pos s = Some x -> x <= length d) ->
  minp s <= length d ->
  loop d dt date fuel s = Some p -> place_ok start p.
Proof.
  induction fuel as [|fuel IH]; intros start s p S M Tr Mi H; [discriminate|]. cbn [loop] in H. unfold turn in H.
  destruct (minp s <? maxp s) eqn:Lt; [|injection H as <-; auto].
  set (p0 := match try_pos s with Some p => p | None => minp s + (maxp s - minp s) / 2 end) in *.
  assert (P0 : p0 <= length d).
  { unfold p0. destruct (try_pos s); [auto|]. assert (X : (maxp s - minp s) / 2 <= maxp s - minp s) by (apply Nat.div_le_upper_bound; lia). revert X. generalize ((maxp s - minp s) / 2). intros; lia. }
  destruct (narrow d dt date (minp s) (maxp s) (seek d (p0 - 2))) as [[pos a] b] eqn:N.
  assert (X : place_ok start a /\ a <= length d /\ b <= length d).
  { unfold narrow in N. destruct (probe d dt 5 (maxp s) _ _ _ None) as [[[pos1 nextp] tell] t] eqn:P.
    apply probe_place in P; [|apply seek_at_line|apply seek_le; lia|discriminate]. destruct P as [[P1 P2] P3].
    destruct t as [t|]; [|injection N as <- <- <-; auto].
    destruct (date <=? t)%Z; injection N as <- <- <-.
    - repeat (split; [assumption|]). match goal with |- (if ?c then _ else _) <= _ => destruct c eqn:Z end; [apply Nat.ltb_lt in Z|]; lia.
    - destruct nextp as [x|].
      + destruct (P3 x eq_refl). destruct (minp s <? x); [|auto]. repeat split; auto. now apply place_ok_at.
      + destruct (minp s <? tell); [|auto]. repeat split; auto. now apply place_ok_at. }
  destruct X as (S' & La & Lb).
  destruct (eqb (Some pos) (last_pos s)).
  - destruct (movecntr s - 1 =? 0); [injection H as <-; exact S'|].
    destruct (negb (eqb (Some a) (last_pos s))); [|injection H as <-; exact S'].
    eapply IH in H; eauto. intros x X. cbn in X. injection X as <-. exact La.
  - eapply IH in H; eauto. discriminate.
Qed.

(** ** the search ends *)
Definition mid (a b : nat) : nat := a + (b - a) / 2.
Definition phase (s : search) : nat :=
  match try_pos s with
  | Some _ => 2
  | None => if eqb (last_pos s) (Some (fst (fst (narrow d dt date (minp s) (maxp s) (seek d (mid (minp s) (maxp s) - 2)))))) then 0 else 1
  end.
Definition measure (s : search) : nat := ((maxp s - minp s) * 4 + movecntr s) * 3 + phase s.
Lemma narrow_grow : forall a b p pos a' b', narrow d dt date a b p = (pos, a', b') -> a <= a' /\ b' <= b.
Proof.
  intros a b p pos a' b' N. unfold narrow in N.
  destruct (probe d dt 5 b p p p None) as [[[pos1 nextp] tell] t].
  destruct t as [t|]; [|injection N as <- <- <-; auto].
  destruct (Z.leb_spec date t) as [Le|Lt]; injection N as <- <- <-.
  - split; [lia|]. destruct (_ <? b) eqn:X; lia.
  - destruct (a <? match nextp with Some n => n | None => tell end) eqn:X; lia.
Qed.
Lemma turn_down : forall s s', turn d dt date s = inl s' -> measure s' < measure s.
Proof.
  intros s s' H. unfold turn in H.
  destruct (minp s <? maxp s) eqn:M; [apply Nat.ltb_lt in M|discriminate].
  set (p0 := match try_pos s with Some p => p | None => minp s + (maxp s - minp s) / 2 end) in *.
  destruct (narrow d dt date (minp s) (maxp s) (seek d (p0 - 2))) as [[pos a] b] eqn:N.
  pose proof (narrow_grow _ _ _ _ _ _ N) as [La Lb].
  assert (Ph : forall x, phase x <= 2).
  { intros x. unfold phase. destruct (try_pos x); [lia|]. match goal with |- context [if ?b then _ else _] => destruct b end; lia. }
  destruct (eqb (Some pos) (last_pos s)) eqn:E.
  - destruct (Nat.eqb_spec (movecntr s - 1) 0) as [|Nm]; [discriminate|].
    destruct (negb (eqb (Some a) (last_pos s))); [|discriminate]. injection H as <-.
    unfold measure. cbn [maxp minp movecntr]. pose proof (Ph (mkSearch a b (Some a) (Some a) (movecntr s - 1))). lia.
  - injection H as <-. unfold measure. cbn [maxp minp movecntr].
    pose proof (Ph (mkSearch a b None (Some pos) (movecntr s))) as P1. 
    destruct (Nat.eq_dec a (minp s)) as [->|Na]; [|lia].
    destruct (Nat.eq_dec b (maxp s)) as [->|Nb]; [|lia].
    assert (X : phase (mkSearch (minp s) (maxp s) None (Some pos) (movecntr s)) < phase s); [|lia].
    unfold phase at 2. destruct (try_pos s) as [p|] eqn:T.
    + unfold phase. cbn [try_pos]. match goal with |- context [if ?b then _ else _] => destruct b end; lia.
    + unfold p0 in N. fold (mid (minp s) (maxp s)) in N. rewrite N. cbn [fst].
      unfold phase. cbn [try_pos last_pos minp maxp]. rewrite N. cbn [fst]. rewrite eqb_refl.
      replace (eqb (last_pos s) (Some pos)) with false; [lia|]. symmetry. rewrite eqb_sym. exact E.
Qed.
Lemma loop_ends : forall fuel s, measure s < fuel -> loop d dt date fuel s <> None.
Proof.
  induction fuel as [|fuel IH]; intros s H; [lia|]. cbn [loop]. destruct (turn d dt date s) as [s'|p] eqn:T; [|discriminate].
  apply turn_down in T. apply IH. lia.
Qed.
End Seek.
