(** Lemmas about the includes: that reading ends, and in which order. *)
From Coq Require Import Relations Lia Arith.
From Verif Require Import Base Text Config_Model Config_Spec Config_Proofs.
Local Open Scope nat_scope.

(** ** More fuel does not matter *)
Definition le_opt {A} (x y : option A) : Prop := forall r, x = Some r -> y = Some r.
Lemma collect_mono g h c l : (forall c x, le_opt (g c x) (h c x)) -> le_opt (collect g c l) (collect h c l).
Proof.
  intros M. revert c. induction l as [|x l IH]; intros c r; cbn [collect]; auto.
  destruct (g c x) as [[c1 a]|] eqn:E; [|discriminate]. rewrite (M _ _ _ E). destruct (collect g c1 l) as [[c2 b]|] eqn:E2; [|discriminate].
  now rewrite (IH _ _ E2).
Qed.
Lemma get_includes_with_mono g h w share c l : (forall c x, le_opt (g c x) (h c x)) -> le_opt (get_includes_with g w share c l) (get_includes_with h w share c l).
Proof.
  intros M r. unfold get_includes_with. destruct share; [|now apply collect_mono]. destruct (dget (expand w l) c); auto.
  destruct (collect g c (expand w l)) as [[c1 a]|] eqn:E; [|discriminate]. now rewrite (collect_mono _ _ _ _ M _ E).
Qed.
Lemma uncached_mono w share : forall n m seen c x, n <= m -> le_opt (uncached n w share seen c x) (uncached m w share seen c x).
Proof.
  induction n as [|n IH]; intros m seen c x L r; cbn [uncached]; [discriminate|]. destruct m as [|m]; [lia|]. cbn [uncached].
  destruct (w_content w x) as [f|]; auto.
  set (inc := fun k c line => if inb (resolve x line) seen then Some (c, []) else get_includes_with (uncached k w share (seen ++ [x])) w share c [resolve x line]).
  change (match collect (inc n) c (include_lines f (tx "before")) with Some (c1, before) =>
      match collect (inc n) c1 (include_lines f (tx "after")) with Some (c2, after) => Some (c2, before ++ [x] ++ after) | None => None end | None => None end = Some r ->
    match collect (inc m) c (include_lines f (tx "before")) with Some (c1, before) =>
      match collect (inc m) c1 (include_lines f (tx "after")) with Some (c2, after) => Some (c2, before ++ [x] ++ after) | None => None end | None => None end = Some r).
  assert (M : forall c y, le_opt (inc n c y) (inc m c y)).
  { intros c0 y q. unfold inc. destruct (inb (resolve x y) seen); auto. apply get_includes_with_mono. intros c1 z. apply IH. lia. }
  destruct (collect (inc n) c _) as [[c1 a]|] eqn:E; [|discriminate]. rewrite (collect_mono _ _ _ _ M _ E).
  destruct (collect (inc n) c1 _) as [[c2 b]|] eqn:E2; [|discriminate]. now rewrite (collect_mono _ _ _ _ M _ E2).
Qed.
Lemma get_includes_mono w share c l n m r : n <= m -> get_includes n w share c l = Some r -> get_includes m w share c l = Some r.
Proof. intros L. apply get_includes_with_mono. intros c0 x. now apply uncached_mono. Qed.

(** ** Ending *)
Definition ends (w : world) (seen : list text) (x : text) : Prop :=
  exists n, forall m share c, n <= m -> uncached m w share seen c x <> None.
Lemma bound {A} (P : A -> nat -> Prop) (l : list A) : (forall x n m, P x n -> n <= m -> P x m) -> (forall x, In x l -> exists n, P x n) -> exists n, forall x, In x l -> P x n.
Proof.
  intros M. induction l as [|x l IH]; intros H.
  - exists 0. intros x [].
  - destruct IH as [n Hn]; [intros y Hy; apply H; now right|]. destruct (H x) as [k Hk]; [now left|]. exists (n + k).
    intros y [<-|Hy]; [eapply M; [exact Hk|lia]|]. eapply M; [apply Hn, Hy|lia].
Qed.
Lemma collect_total g c l : (forall c x, In x l -> g c x <> None) -> collect g c l <> None.
Proof.
  revert c. induction l as [|x l IH]; intros c H; cbn [collect]; [discriminate|].
  destruct (g c x) as [[c1 a]|] eqn:E; [|apply H in E; [contradiction|now left]].
  specialize (IH c1 (fun c y Hy => H c y (or_intror Hy))). destruct (collect g c1 l) as [[c2 b]|]; congruence.
Qed.
Lemma get_includes_with_total g w share c l : (forall c x, In x (expand w l) -> g c x <> None) -> get_includes_with g w share c l <> None.
Proof.
  intros H. unfold get_includes_with. destruct share; [|now apply collect_total]. destruct (dget _ c); [discriminate|].
  pose proof (collect_total g c _ H). destruct (collect g c (expand w l)) as [[c1 a]|]; congruence.
Qed.
Lemma ends_step w seen x : (forall r y, included w x r -> ~ In r seen -> In y (expand w [r]) -> ends w (seen ++ [x]) y) -> ends w seen x.
Proof.
  intros H. destruct (w_content w x) as [f|] eqn:E.
  2: { exists 1. intros [|m] share c L; [lia|]. cbn [uncached]. rewrite E. discriminate. }
  set (lines := include_lines f (tx "before") ++ include_lines f (tx "after")).
  set (rs := filter (fun r => negb (inb r seen)) (map (resolve x) lines)).
  destruct (bound (fun y n => forall m share c, n <= m -> uncached m w share (seen ++ [x]) c y <> None) (flat_map (fun r => expand w [r]) rs)) as [n Hn].
  { intros y n m P L k share c Lk. apply P. lia. }
  { intros y Hy. apply in_flat_map in Hy as (r & Hr & Hy). apply filter_In in Hr as [Hr N]. apply in_map_iff in Hr as (line & <- & Hl).
    eapply (H (resolve x line)).
    - apply included_lines. exists f, line. split; auto. split; auto. now apply in_app_iff in Hl.
    - apply negb_true_iff in N. now apply inb_false in N.
    - exact Hy. }
  exists (S n). intros [|m] share c L; [lia|]. cbn [uncached]. rewrite E.
  assert (T : forall c line, In line lines -> (if inb (resolve x line) seen then Some (c, []) else get_includes_with (uncached m w share (seen ++ [x])) w share c [resolve x line]) <> None).
  { intros c0 line Hl. destruct (inb (resolve x line) seen) eqn:N; [discriminate|]. apply get_includes_with_total. intros c1 y Hy. apply Hn; [|lia].
    apply in_flat_map. exists (resolve x line). split; auto. apply filter_In. split; [now apply in_map|now rewrite N]. }
  pose proof (collect_total _ c (include_lines f (tx "before")) (fun c y Hy => T c y (proj2 (in_app_iff _ _ _) (or_introl Hy)))) as T1. cbv zeta.
  destruct (collect _ c (include_lines f (tx "before"))) as [[c1 a]|]; [|congruence].
  pose proof (collect_total _ c1 (include_lines f (tx "after")) (fun c y Hy => T c y (proj2 (in_app_iff _ _ _) (or_intror Hy)))) as T2.
  destruct (collect _ c1 (include_lines f (tx "after"))) as [[c2 b]|]; congruence.
Qed.

(** Without circles among finitely many files every chain ends *)
Lemma no_circle_acc (R : text -> text -> Prop) files : (forall x y, R x y -> In x files) -> no_circle R -> forall x, Acc (fun y x => R x y) x.
Proof.
  intros Fin NC.
  assert (G : forall n path x, length files - length (x :: path) < n -> NoDup (x :: path) -> incl (x :: path) files ->
    (forall p, In p path -> clos_trans _ R p x) -> Acc (fun y x => R x y) x).
  { induction n as [|n IH]; intros path x L ND Inc Ch; [lia|]. constructor. intros y Hy.
    assert (Hc : forall p, In p (x :: path) -> clos_trans _ R p y).
    { intros p [<-|Hp]; [now apply t_step|]. eapply t_trans; [apply Ch, Hp|now apply t_step]. }
    assert (Ny : ~ In y (x :: path)) by (intros H; apply Hc in H; now apply NC in H).
    destruct (in_dec (fun a b : text => list_eq_dec ascii_dec a b) y files) as [Hf|Hf].
    - assert (ND' : NoDup (y :: x :: path)) by now constructor.
      assert (Inc' : incl (y :: x :: path) files) by (intros z [<-|Hz]; auto).
      pose proof (NoDup_incl_length ND' Inc') as Ln. cbn [length] in *. apply (IH (x :: path) y); auto. cbn [length]. lia.
    - constructor. intros z Hz. apply Fin in Hz. contradiction. }
  intros x. destruct (in_dec (fun a b : text => list_eq_dec ascii_dec a b) x files) as [Hf|Hf].
  - apply (G (S (length files)) [] x).
    + cbn. lia.
    + repeat constructor; auto.
    + intros z [<-|[]]; auto.
    + intros p [].
  - constructor. intros y Hy. apply Fin in Hy. contradiction.
Qed.

Section Ending.
  Context (w : world) (files : list text).
  Hypothesis Fin : forall f, w_content w f <> None -> In f files.
  Hypothesis NC : no_circle (drags w).
  Definition left_over (seen : list text) : nat := length (filter (fun f => negb (inb f seen)) files).

  Lemma filter_length_le {A} (p q : A -> bool) l : (forall x, q x = true -> p x = true) -> length (filter q l) <= length (filter p l).
  Proof.
    intros H. induction l as [|x l IH]; cbn; auto. destruct (q x) eqn:E; [rewrite (H _ E); cbn; lia|]. destruct (p x); cbn; lia.
  Qed.
  Lemma filter_length_lt {A} (p q : A -> bool) l x : (forall x, q x = true -> p x = true) -> In x l -> p x = true -> q x = false ->
    length (filter q l) < length (filter p l).
  Proof.
    intros H Hx Px Qx. induction l as [|y l IH]; [destruct Hx|]. destruct Hx as [->|Hx]; cbn.
    - rewrite Px, Qx. cbn. pose proof (filter_length_le p q l H). lia.
    - specialize (IH Hx). destruct (q y) eqn:E; [rewrite (H _ E); cbn; lia|]. destruct (p y); cbn; lia.
  Qed.
  Lemma inb_snoc (x : text) (seen : list text) (y : text) : inb y (seen ++ [x]) = inb y seen || eqb y x.
  Proof.
    apply Bool.eq_iff_eq_true. rewrite orb_true_iff, !inb_In, in_app_iff, eqb_eq. cbn. intuition congruence.
  Qed.
  Lemma left_fresh seen x : In x files -> ~ In x seen -> left_over (seen ++ [x]) < left_over seen.
  Proof.
    intros Hx N. apply (filter_length_lt _ _ _ x); auto.
    - intros y. cbv beta. rewrite inb_snoc, negb_orb. intros H. now apply andb_true_iff in H.
    - apply negb_true_iff. now apply inb_false.
    - cbv beta. rewrite inb_snoc, eqb_refl, orb_true_r. reflexivity.
  Qed.
  Lemma left_stale seen x : left_over (seen ++ [x]) <= left_over seen.
  Proof. apply filter_length_le. intros y. cbv beta. rewrite inb_snoc, negb_orb. intros H. now apply andb_true_iff in H. Qed.

  Lemma drags_in x y : drags w x y -> In x files.
  Proof. intros (r & H & _). apply included_lines in H as (p & line & E & _). apply Fin. congruence. Qed.

  Lemma all_end : forall k seen, left_over seen <= k -> forall x, ends w seen x.
  Proof.
    induction k as [k IH] using lt_wf_ind. intros seen L.
    assert (Fresh : forall seen, left_over seen <= k -> forall x, ~ In x seen -> ends w seen x).
    { intros seen' L' x N. apply ends_step. intros r y Hr _ _.
      assert (Hx : In x files) by (apply included_lines in Hr as (p & line & E & _); apply Fin; congruence).
      pose proof (left_fresh seen' x Hx N). apply (IH (left_over (seen' ++ [x]))); lia. }
    assert (All : forall x, Acc (fun y x => drags w x y) x -> forall seen, left_over seen <= k -> ends w seen x).
    { intros x A. induction A as [x _ IHA]. intros seen' L'.
      destruct (in_dec (fun a b : text => list_eq_dec ascii_dec a b) x seen') as [Hx|Hx]; [|now apply Fresh].
      apply ends_step. intros r y Hr N Hy. pose proof (left_stale seen' x) as Le.
      destruct (in_dec (fun a b : text => list_eq_dec ascii_dec a b) y (seen' ++ [x])) as [Hs|Hs]; [|apply Fresh; auto; lia].
      apply IHA; [|lia]. exists r. split; auto. rewrite expand_one in Hy.
      assert (Nr : r <> y). { intros <-. apply in_app_iff in Hs. destruct Hs as [Hs|[<-|[]]]; auto. }
      destruct Hy as [Hy|Hy]; [congruence|]. pose proof (with_local_expand w r) as W. rewrite expand_one in W.
      destruct (negb (eqb (local_name r) r) && w_isfile w (local_name r)); [|destruct Hy]. destruct Hy as [<-|[]]. exact W. }
    intros x. apply All; auto. apply (no_circle_acc (drags w) files); auto. exact drags_in.
  Qed.
  Lemma get_includes_ends names : exists n, forall m share c, n <= m -> get_includes m w share c names <> None.
  Proof.
    destruct (bound (fun y n => forall m share c, n <= m -> uncached m w share [] c y <> None) (expand w names)) as [n Hn].
    { intros y n m P L k share c Lk. apply P. lia. }
    { intros y _. destruct (all_end (left_over []) [] (Nat.le_refl _) y) as [n Hn]. eauto. }
    exists n. intros m share c L. apply get_includes_with_total. intros c0 x Hx. apply Hn; auto.
  Qed.
End Ending.

(** ** The order *)
Lemma collect_spec (P : text -> list text -> Prop) g l : forall c c' r, (forall c x c' a, In x l -> g c x = Some (c', a) -> P x a) ->
  collect g c l = Some (c', r) -> exists ls, r = concat ls /\ Forall2 P l ls.
Proof.
  induction l as [|x l IH]; intros c c' r H; cbn [collect].
  - intros [= <- <-]. exists []. auto.
  - destruct (g c x) as [[c1 a]|] eqn:E; [|discriminate]. destruct (collect g c1 l) as [[c2 b]|] eqn:E2; [|discriminate]. intros [= <- <-].
    destruct (IH c1 c2 b) as (ls & -> & F); auto. { intros c0 y c0' a0 Hy. apply H. now right. }
    exists (a :: ls). split; auto. constructor; auto. eapply H; [now left|exact E].
Qed.
Lemma uncached_listing w : forall n seen c x c' l, uncached n w false seen c x = Some (c', l) -> listing w seen x l.
Proof.
  induction n as [|n IH]; intros seen c x c' l; cbn [uncached]; [discriminate|]. destruct (w_content w x) as [f|] eqn:E.
  2: { intros [= <- <-]. now apply g_none. }
  cbv zeta. destruct (collect _ c (include_lines f (tx "before"))) as [[c1 a]|] eqn:E1; [|discriminate].
  destruct (collect _ c1 (include_lines f (tx "after"))) as [[c2 b]|] eqn:E2; [|discriminate]. intros [= <- <-].
  assert (P : forall c line c' a, (if inb (resolve x line) seen then Some (c, []) else get_includes_with (uncached n w false (seen ++ [x])) w false c [resolve x line]) = Some (c', a) ->
    part w seen x line a).
  { intros c0 line c0' a0. destruct (inb (resolve x line) seen) eqn:N.
    - intros [= <- <-]. apply inb_In in N. eapply p_seen; [apply resolve_beside|exact N].
    - apply inb_false in N. unfold get_includes_with. intros H. apply (collect_spec (listing w (seen ++ [x]))) in H as (ls & -> & F).
      + eapply p_new; [apply resolve_beside|exact N|apply with_local_expand|exact F].
      + intros c3 y c4 a1 _. apply IH. }
  apply (collect_spec (part w seen x)) in E1 as (bs & -> & F1); [|intros; eapply P; eauto].
  apply (collect_spec (part w seen x)) in E2 as (als & -> & F2); [|intros; eapply P; eauto].
  eapply g_some; eauto using listed_lines.
Qed.
Lemma get_includes_listing n w c names c' l : get_includes n w false c names = Some (c', l) ->
  exists ls, l = concat ls /\ Forall2 (listing w []) (expand w names) ls.
Proof. unfold get_includes, get_includes_with. apply collect_spec. intros c0 x c1 a _. apply uncached_listing. Qed.

(** ** Without circles *)
Definition trees (w : world) (names l : list text) : Prop := exists ls, l = concat ls /\ Forall2 (tree w) names ls.
Definition cache_ok (w : world) (c : cache) : Prop := forall names l, dget names c = Some l -> trees w names l.
Lemma collect_inv (P : text -> list text -> Prop) (Q : cache -> Prop) g l : forall c c' r, Q c ->
  (forall c x c' a, Q c -> In x l -> g c x = Some (c', a) -> P x a /\ Q c') ->
  collect g c l = Some (c', r) -> Q c' /\ exists ls, r = concat ls /\ Forall2 P l ls.
Proof.
  induction l as [|x l IH]; intros c c' r Hq H; cbn [collect].
  - intros [= <- <-]. split; auto. exists []. auto.
  - destruct (g c x) as [[c1 a]|] eqn:E; [|discriminate]. destruct (collect g c1 l) as [[c2 b]|] eqn:E2; [|discriminate]. intros [= <- <-].
    destruct (H c x c1 a Hq (or_introl eq_refl) E) as [Pa Q1].
    destruct (IH c1 c2 b Q1) as (Q2 & ls & -> & F); auto. { intros c0 y c0' a0 Hc Hy. apply H; auto. now right. }
    split; auto. exists (a :: ls). split; auto.
Qed.
Lemma get_includes_with_trees w g share names c c' l : cache_ok w c ->
  (forall c x c' a, cache_ok w c -> In x (expand w names) -> g c x = Some (c', a) -> tree w x a /\ cache_ok w c') ->
  get_includes_with g w share c names = Some (c', l) -> cache_ok w c' /\ trees w (expand w names) l.
Proof.
  intros Hc Hg. unfold get_includes_with. destruct share; [|now apply collect_inv].
  destruct (dget (expand w names) c) as [k|] eqn:E.
  - intros [= <- <-]. auto.
  - destruct (collect g c (expand w names)) as [[c1 a]|] eqn:E1; [|discriminate]. intros [= <- <-].
    apply (collect_inv (tree w) (cache_ok w)) in E1 as [Q T]; auto. split; auto.
    intros ns k. rewrite dget_dset. destruct (eqb ns (expand w names)) eqn:Q2; [|apply Q]. apply eqb_true in Q2 as ->. intros [= <-]. exact T.
Qed.
Lemma uncached_tree w share : no_circle (leads w) -> forall n seen c x c' l, cache_ok w c -> (forall s, In s seen -> clos_trans _ (leads w) s x) ->
  uncached n w share seen c x = Some (c', l) -> tree w x l /\ cache_ok w c'.
Proof.
  intros NC. induction n as [|n IH]; intros seen c x c' l Hc Hs; cbn [uncached]; [discriminate|]. destruct (w_content w x) as [f|] eqn:E.
  2: { intros [= <- <-]. split; auto. now apply t_none. }
  cbv zeta. destruct (collect _ c (include_lines f (tx "before"))) as [[c1 a]|] eqn:E1; [|discriminate].
  destruct (collect _ c1 (include_lines f (tx "after"))) as [[c2 b]|] eqn:E2; [|discriminate]. intros [= <- <-].
  assert (P : forall c line c' a, cache_ok w c -> In line (include_lines f (tx "before")) \/ In line (include_lines f (tx "after")) ->
    (if inb (resolve x line) seen then Some (c, []) else get_includes_with (uncached n w share (seen ++ [x])) w share c [resolve x line]) = Some (c', a) ->
    branch w x line a /\ cache_ok w c').
  { intros c0 line c0' a0 Hc0 Hl.
    assert (Hi : included w x (resolve x line)) by (apply included_lines; eauto).
    assert (Hd : forall y, In y (expand w [resolve x line]) -> leads w x y) by (intros y Hy; exists (resolve x line), (expand w [resolve x line]); auto using with_local_expand).
    destruct (inb (resolve x line) seen) eqn:N.
    - apply inb_In in N. exfalso. apply (NC (resolve x line)). eapply t_trans; [apply Hs, N|]. apply t_step, Hd. rewrite expand_one. now left.
    - intros H. apply get_includes_with_trees in H as [Q (ls & -> & F)]; auto.
      + split; auto. eapply b_new; [apply resolve_beside|apply with_local_expand|exact F].
      + intros c3 y c4 a1 Hc3 Hy. apply IH; auto. intros s Hin. apply in_app_iff in Hin. destruct Hin as [Hin|[<-|[]]]; [|apply t_step, Hd, Hy].
        eapply t_trans; [apply Hs, Hin|apply t_step, Hd, Hy]. }
  apply (collect_inv (branch w x) (cache_ok w)) in E1 as (Q1 & bs & -> & F1); [|exact Hc|intros c0 y c0' a0 Hc0 Hy; apply P; auto].
  apply (collect_inv (branch w x) (cache_ok w)) in E2 as (Q2 & als & -> & F2); [|exact Q1|intros c0 y c0' a0 Hc0 Hy; apply P; auto].
  split; auto. eapply t_some; eauto using listed_lines.
Qed.
Lemma get_includes_trees n w share c names c' l : no_circle (leads w) -> cache_ok w c -> get_includes n w share c names = Some (c', l) ->
  cache_ok w c' /\ trees w (expand w names) l.
Proof.
  intros NC Hc. apply get_includes_with_trees; auto. intros c0 x c1 a H _ E. eapply uncached_tree in E; eauto. intros s [].
Qed.
(** A tree is determined *)
Lemma beside_fun a line r r' : beside a line r -> beside a line r' -> r = r'.
Proof. intros H H'. apply beside_resolve in H, H'. congruence. Qed.
Lemma with_local_fun w r l l' : with_local w r l -> with_local w r l' -> l = l'.
Proof. intros H H'. apply expand_with_local in H, H'. congruence. Qed.
Lemma Forall2_fun {A B} (P : A -> B -> Prop) l : (forall x a b, In x l -> P x a -> P x b -> a = b) -> forall r r', Forall2 P l r -> Forall2 P l r' -> r = r'.
Proof.
  induction l as [|x l IH]; intros H r r' F G; inversion F; inversion G; subst; auto. f_equal; [eapply H; eauto; now left|].
  apply IH; auto. intros z a b Hz. apply H. now right.
Qed.
Lemma tree_fun w files : (forall f, w_content w f <> None -> In f files) -> no_circle (leads w) -> forall x l l', tree w x l -> tree w x l' -> l = l'.
Proof.
  intros Fin NC x. assert (A : Acc (fun y x => leads w x y) x).
  { apply (no_circle_acc (leads w) files); auto. intros a b (r & l & H & _). apply included_lines in H as (p & line & E & _). apply Fin. congruence. }
  induction A as [x _ IH]. intros l l' T T'. inversion T as [f E|f p lb la bs als E B1 A1 F1 G1]; inversion T' as [f' E'|f' p' lb' la' bs' als' E' B2 A2 F2 G2]; subst; try congruence.
  assert (p' = p) by congruence. subst p'. apply lines_listed in B1, B2, A1, A2. subst.
  assert (Br : forall line a b, In line (include_lines p (tx "before")) \/ In line (include_lines p (tx "after")) -> branch w x line a -> branch w x line b -> a = b).
  { intros line a b Hl Ba Bb. inversion Ba as [f1 l1 r1 n1 ls1 R1 W1 X1]; inversion Bb as [f2 l2 r2 n2 ls2 R2 W2 X2]; subst.
    assert (r2 = r1) by (eapply beside_fun; eauto). subst r2. assert (n2 = n1) by (eapply with_local_fun; eauto). subst n2. f_equal.
    eapply Forall2_fun; [|exact X1|exact X2]. intros y a b Hy. apply IH. exists r1, n1. split; auto. apply included_lines. exists p, line.
    split; auto. split; auto. now apply beside_resolve. }
  rewrite (Forall2_fun _ _ (fun line a b H => Br line a b (or_introl H)) _ _ F1 F2). rewrite (Forall2_fun _ _ (fun line a b H => Br line a b (or_intror H)) _ _ G1 G2). reflexivity.
Qed.
Lemma trees_fun w files names l l' : (forall f, w_content w f <> None -> In f files) -> no_circle (leads w) -> trees w names l -> trees w names l' -> l = l'.
Proof. intros Fin NC (ls & -> & F) (ls' & -> & F'). f_equal. eapply Forall2_fun; eauto. intros x a b _. eapply tree_fun; eauto. Qed.
Lemma drags_leads w : no_circle (leads w) -> no_circle (drags w).
Proof.
  intros NC x H. apply (NC x). revert H. generalize x at 1 3. intros y H. induction H as [a b (r & H1 & H2)|a b c _ IH1 _ IH2].
  - apply t_step. exists r, [r; b]. split; auto. split; auto. right. now left.
  - eapply t_trans; eauto.
Qed.
