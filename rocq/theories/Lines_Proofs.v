(** Proofs about the lines of a match. *)
From Verif Require Import Base Text Lines_Model Lines_Spec.
From Coq Require Import Permutation.
Require Import ZifyBool ZifyNat.
Local Open Scope nat_scope.

Definition flat (ls : list line) : text := concat (map (fun l => shown l ++ [nl]) ls).
Lemma flat_app a b : flat (a ++ b) = flat a ++ flat b.
Proof. unfold flat. now rewrite map_app, concat_app. Qed.
Lemma buf_flat ls : ls <> [] -> lines_buf ls = flat ls.
Proof.
  unfold lines_buf. induction ls as [|l [|l' r] IH]; intros N; [congruence| |].
  - unfold flat. cbn. now rewrite app_nil_r.
  - change (flat (l :: l' :: r)) with ((shown l ++ [nl]) ++ flat (l' :: r)). rewrite <- IH by discriminate.
    cbn [map join]. rewrite <- !app_assoc. reflexivity.
Qed.
Lemma len_flat ls : length (flat ls) = size ls.
Proof. induction ls as [|l r IH]; [reflexivity|]. change (flat (l :: r)) with ((shown l ++ [nl]) ++ flat r). rewrite !app_length. cbn. lia. Qed.
Lemma size_app a b : size (a ++ b) = size a + size b.
Proof. induction a as [|l r IH]; cbn; [reflexivity|]. rewrite IH. lia. Qed.

(** ** counting newlines *)
Lemma count_0 s : count_nl s 0 = 0. Proof. reflexivity. Qed.
Lemma count_cons c s n : count_nl (c :: s) (S n) = (if eqb c nl then 1 else 0) + count_nl s n.
Proof. unfold count_nl. cbn [firstn filter]. destruct (eqb c nl); reflexivity. Qed.
Lemma count_nil n : count_nl [] n = 0. Proof. unfold count_nl. now rewrite firstn_nil. Qed.
Lemma count_app a b n : count_nl (a ++ b) n = count_nl a n + count_nl b (n - length a).
Proof.
  revert n. induction a as [|c a IH]; intros n; cbn [app length].
  - rewrite count_nil, Nat.sub_0_r. reflexivity.
  - destruct n; [reflexivity|]. rewrite !count_cons, IH. cbn [Nat.sub]. lia.
Qed.
Lemma count_free t n : ~ In nl t -> count_nl t n = 0.
Proof.
  revert n. induction t as [|c t IH]; intros n N; [apply count_nil|]. destruct n; [reflexivity|]. rewrite count_cons, IH by (intros I; apply N; now right).
  destruct (eqb_spec c nl) as [->|E]; [destruct N; now left|reflexivity].
Qed.
Lemma count_mono s n m : n <= m -> count_nl s n <= count_nl s m.
Proof.
  revert n m. induction s as [|c s IH]; intros n m L; [rewrite !count_nil; lia|]. destruct n; [rewrite count_0; lia|]. destruct m; [lia|].
  rewrite !count_cons. specialize (IH n m). lia.
Qed.
Lemma count_S s n : count_nl s (S n) <= S (count_nl s n).
Proof.
  revert n. induction s as [|c s IH]; intros n; [rewrite !count_nil; lia|]. rewrite count_cons. destruct n.
  - rewrite !count_0. destruct (eqb c nl); lia.
  - rewrite count_cons. specialize (IH n). lia.
Qed.
Lemma count_line l n : ~ In nl (shown l) -> count_nl (shown l ++ [nl]) n = if n <=? length (shown l) then 0 else 1.
Proof.
  intros N. rewrite count_app, count_free by exact N. destruct (Nat.leb_spec n (length (shown l))) as [L|L].
  - replace (n - _) with 0 by lia. reflexivity.
  - destruct (n - length (shown l)) eqn:E; [lia|]. rewrite count_cons, count_nil, eqb_refl. reflexivity.
Qed.
Lemma count_flat_max ls n : no_break ls -> count_nl (flat ls) n <= length ls.
Proof.
  intros B. revert n. induction B as [|l r N B IH]; intros n; [cbn; now rewrite count_nil|].
  change (flat (l :: r)) with ((shown l ++ [nl]) ++ flat r). rewrite count_app, count_line by exact N. specialize (IH (n - length (shown l ++ [nl]))). cbn [length].
  destruct (_ <=? _); lia.
Qed.
Lemma count_flat_all ls n : no_break ls -> size ls <= n -> count_nl (flat ls) n = length ls.
Proof.
  intros B. revert n. induction B as [|l r N B IH]; intros n L; [cbn; now rewrite count_nil|]. cbn [size] in L.
  change (flat (l :: r)) with ((shown l ++ [nl]) ++ flat r). rewrite count_app, count_line, app_length, IH by (auto; cbn; try rewrite app_length; cbn; lia). cbn [length].
  destruct (Nat.leb_spec n (length (shown l))); lia.
Qed.
Lemma count_lines p l r n : no_break (p ++ l :: r) -> length p < count_nl (flat (p ++ l :: r)) n <-> size (p ++ [l]) <= n.
Proof.
  intros B. pose proof B as B'. unfold no_break in B. rewrite Forall_app in B. destruct B as [Bp Br]. inversion Br as [|? ? Bl Br']; subst.
  replace (p ++ l :: r) with ((p ++ [l]) ++ r) by (now rewrite <- app_assoc). split; intros H.
  - destruct (Nat.le_gt_cases (size (p ++ [l])) n) as [|G]; [assumption|exfalso].
    rewrite flat_app, flat_app, !count_app in H. rewrite app_length, !len_flat in H. rewrite size_app in G. cbn [size] in G.
    replace (flat [l]) with (shown l ++ [nl]) in H by (unfold flat; cbn; now rewrite app_nil_r). rewrite count_line in H by exact Bl.
    pose proof (count_flat_max p n Bp). replace (n - (size p + size [l])) with 0 in H by (cbn [size]; lia). rewrite count_0 in H.
    destruct (Nat.leb_spec (n - size p) (length (shown l))); lia.
  - rewrite flat_app, count_app, count_flat_all; [rewrite app_length; cbn; lia| |exact H]. apply Forall_app. split; [exact Bp|]. constructor; auto.
Qed.

(** ** the searches for a newline *)
Lemma rindex_count s n : count_nl s (match rindex_nl s n with Some i => S i | None => 0 end) = count_nl s n.
Proof.
  revert n. induction s as [|c s IH]; intros [|n]; cbn [rindex_nl]; try reflexivity. specialize (IH n). rewrite count_cons.
  destruct (rindex_nl s n) as [i|].
  - rewrite count_cons. lia.
  - rewrite count_0 in IH. destruct (eqb c nl) eqn:E; [rewrite count_cons, E, count_0; lia|rewrite count_0; lia].
Qed.
Lemma index_count s n : match index_nl s n with Some i => count_nl s (S i) = S (count_nl s n) | None => count_nl s (length s) = count_nl s n end.
Proof.
  revert n. induction s as [|c s IH]; intros n; [cbn; now rewrite !count_nil|]. destruct n as [|n]; cbn [index_nl].
  - destruct (eqb c nl) eqn:E; [rewrite count_cons, E, !count_0; reflexivity|]. specialize (IH 0). destruct (index_nl s 0) as [i|]; cbn [option_map length].
    + rewrite count_cons, E, count_0 in *. lia.
    + rewrite count_cons, E, count_0 in *. lia.
  - specialize (IH n). destruct (index_nl s n) as [i|]; cbn [option_map length]; rewrite !count_cons in *; lia.
Qed.
Lemma index_some ls n : ls <> [] -> n < length (flat ls) -> index_nl (flat ls) n <> None.
Proof.
  intros Ne L. destruct (exists_last Ne) as (a & l & ->). rewrite flat_app in *. replace (flat [l]) with (shown l ++ [nl]) in * by (unfold flat; cbn; now rewrite app_nil_r).
  rewrite app_assoc in *. rewrite app_length in L. cbn in L. revert n L. induction (flat a ++ shown l) as [|c s IH]; intros n L; cbn in *.
  - destruct n; [discriminate|lia].
  - destruct n as [|n]; [destruct (eqb c nl); [discriminate|]; specialize (IH 0); destruct (index_nl _ 0); [discriminate|exfalso; apply IH; [lia|reflexivity]]|].
    specialize (IH n). destruct (index_nl (s ++ [nl]) n); [discriminate|]. cbn. exfalso. apply IH; [lia|reflexivity].
Qed.

(** ** moving the skipped lines *)
Lemma merge_app {A} (a b c a' b' c' : list A) : merge a b c -> merge a' b' c' -> merge (a ++ a') (b ++ b') (c ++ c').
Proof. induction 1; cbn; [auto|now constructor; apply IHmerge|now constructor; apply IHmerge]. Qed.
Lemma merge_left {A} (a : list A) : merge a [] a.
Proof. induction a; constructor; auto. Qed.
Lemma merge_nil_l {A} (b c : list A) : merge [] b c -> b = c.
Proof. intros M. remember [] as a. induction M; subst; try discriminate; [reflexivity|f_equal; auto]. Qed.
Lemma merge_length {A} (a b c : list A) : merge a b c -> length c = length a + length b.
Proof. induction 1; cbn; lia. Qed.
Lemma merge_map {A B} (f : A -> B) a b c : merge a b c -> merge (map f a) (map f b) (map f c).
Proof. induction 1; cbn; constructor; auto. Qed.
Lemma merge_swap {A} (a b c : list A) : merge a b c -> merge b a c.
Proof. induction 1; constructor; auto. Qed.
Lemma merge_perm {A} (a b c : list A) : merge a b c -> Permutation (a ++ b) c.
Proof.
  induction 1; cbn; [constructor|now constructor|]. rewrite <- Permutation_middle. now constructor.
Qed.
Lemma find_shown_split t ls m : find_shown t ls = Some m -> exists a l r, ls = a ++ l :: r /\ length a = m /\ shown l = t /\ ~ In t (map shown a).
Proof.
  revert m. induction ls as [|x ls IH]; intros m; [discriminate|]. cbn. destruct (eqb_spec (shown x) t) as [E|N].
  - intros [= <-]. exists [], x, ls. cbn. auto.
  - destruct (find_shown t ls) as [k|]; [|discriminate]. cbn. intros [= <-]. destruct (IH k eq_refl) as (a & l & r & -> & <- & Es & Ni).
    exists (x :: a), l, r. cbn. intuition.
Qed.
Lemma find_shown_none t ls : find_shown t ls = None -> ~ In t (map shown ls).
Proof.
  induction ls as [|x ls IH]; [cbn; auto|]. cbn. destruct (eqb_spec (shown x) t) as [E|N]; [discriminate|]. destruct (find_shown t ls); [discriminate|].
  intros _ [E|I]; [congruence|now apply IH].
Qed.
Lemma part_tl {A} (t : A) ts z : part (t :: ts) z -> part ts z.
Proof.
  intros (y & M). remember (t :: ts) as tt eqn:E. induction M as [|b x y z M IH|b x y z M IH]; [discriminate| |].
  - injection E as -> ->. exists (t :: y). now constructor.
  - destruct (IH E) as (y' & M'). exists (b :: y'). now constructor.
Qed.
Lemma part_hd {A} (t : A) ts b z : part (t :: ts) (b :: z) -> (b = t /\ part ts z) \/ part (t :: ts) z.
Proof. intros (y & M). inversion M; subst; [left; split; [reflexivity|eexists; eauto]|right; eexists; eauto]. Qed.
Lemma part_behind {A} (t : A) ts a r : ~ In t a -> part (t :: ts) (a ++ t :: r) -> part ts r.
Proof.
  induction a as [|b a IH]; cbn; intros N P.
  - apply part_hd in P as [[_ P]|P]; [exact P|now apply part_tl in P].
  - apply part_hd in P as [[-> _]|P]; [destruct N; now left|]. apply IH; auto.
Qed.
Lemma part_In {A} (t : A) ts z : part (t :: ts) z -> In t z.
Proof.
  intros (y & M). apply merge_perm in M. eapply Permutation_in; [exact M|]. now left.
Qed.
Lemma move_spec ts : forall front rest un, exists kept popped,
  move_skipped ts front rest un = (front ++ kept, un ++ popped) /\ merge kept popped rest /\ part (map shown popped) ts /\
  (part ts (map shown rest) -> map shown popped = ts).
Proof.
  induction ts as [|t ts IH]; intros front rest un; cbn [move_skipped].
  - exists rest, []. rewrite app_nil_r. repeat split; [apply merge_left|exists []; constructor].
  - destruct (find_shown t rest) as [m|] eqn:F.
    + apply find_shown_split in F as (a & l & r & -> & <- & Es & Ni).
      replace (firstn (length a) (a ++ l :: r)) with a by (rewrite firstn_app, Nat.sub_diag, firstn_all; cbn; now rewrite app_nil_r).
      replace (skipn (S (length a)) (a ++ l :: r)) with r by (rewrite skipn_app, skipn_all2, Nat.sub_succ_l, Nat.sub_diag by lia; reflexivity).
      replace (skipn (length a) (a ++ l :: r)) with (l :: r) by (rewrite skipn_app, skipn_all, Nat.sub_diag; reflexivity). cbn [firstn].
      destruct (IH (front ++ a) r (un ++ [l])) as (k & p & -> & M & P & G). exists (a ++ k), (l :: p). rewrite <- !app_assoc. split; [reflexivity|].
      split; [|split].
      * replace (l :: p) with ([] ++ (l :: p)) by reflexivity. apply merge_app; [apply merge_left|]. now constructor.
      * cbn. rewrite Es. destruct P as [y P]. exists y. now constructor.
      * intros Q. cbn. rewrite Es. f_equal. apply G. rewrite map_app in Q. cbn in Q. rewrite Es in Q. now apply part_behind in Q.
    + destruct (IH front rest un) as (k & p & -> & M & P & G). exists k, p. repeat (split; [solve [auto]|]). split.
      * destruct P as [y P]. exists (t :: y). now constructor.
      * intros Q. exfalso. apply find_shown_none in F. now apply part_In in Q.
Qed.

(** ** the search *)
Lemma firstn_skipn_mid {A} (l : list A) i j : i <= j -> l = firstn i l ++ skipn i (firstn j l) ++ skipn j l.
Proof.
  intros L. rewrite <- (firstn_skipn j l) at 1. rewrite <- (firstn_skipn i (firstn j l)) at 1. rewrite firstn_firstn, Nat.min_l by exact L. now rewrite <- app_assoc.
Qed.
Lemma search_spec p org f : search p (lines_buf org) org = Some f -> 1 < length org -> no_break org ->
  m_start (fd_match f) < m_end (fd_match f) <= length (lines_buf org) ->
  exists before covered behind skipped, org = before ++ covered ++ behind /\ touched (m_start (fd_match f)) (m_end (fd_match f)) before covered behind /\
    merge (fd_matched f) skipped covered /\ fd_unmatched f = before ++ skipped ++ behind /\
    part (map shown skipped) (skipped_lines (fd_match f)) /\ (part (skipped_lines (fd_match f)) (map shown covered) -> map shown skipped = skipped_lines (fd_match f)).
Proof.
  unfold search. destruct (p (lines_buf org)) as [m|]; [|discriminate]. intros E L1 B Se.
  replace (length org <=? 1) with false in E by (symmetry; apply Nat.leb_gt; exact L1).
  assert (Em : fd_match f = m) by (injection E as <-; destruct (move_skipped _ _ _ _); reflexivity). rewrite Em in *. clear Em.
  assert (Ne : org <> []) by (destruct org; [cbn in L1; lia|discriminate]). rewrite buf_flat in * by exact Ne.
  rewrite rindex_count in E. set (c1 := count_nl (flat org) (m_start m + 1)) in *.
  destruct (m_end m) as [|e] eqn:Ee; [lia|].
  assert (C2 : count_nl (flat org) (match index_nl (flat org) e with Some i => S i | None => length (flat org) end) = S (count_nl (flat org) e)).
  { pose proof (index_count (flat org) e) as I. pose proof (index_some org e Ne) as N. destruct (index_nl (flat org) e); [exact I|]. exfalso. apply N; [lia|reflexivity]. }
  rewrite C2 in E. set (c2 := S (count_nl (flat org) e)) in *.
  assert (C12 : c1 <= c2). { unfold c1, c2. pose proof (count_S (flat org) e). pose proof (count_mono (flat org) (m_start m + 1) (S e)). lia. }
  assert (C2l : c2 <= length org).
  { unfold c2. destruct (exists_last Ne) as (a & l & ->). rewrite app_length. cbn [length].
    destruct (Nat.le_gt_cases (S (count_nl (flat (a ++ [l])) e)) (length a + 1)) as [|G]; [assumption|].
    assert (H : length a < count_nl (flat (a ++ [l])) e) by lia. apply count_lines in H; [|exact B]. rewrite <- len_flat in H. lia. }
  destruct (move_spec (skipped_lines m) [] (skipn c1 (firstn c2 org)) (firstn c1 org)) as (k & q & Mv & M & P & G). rewrite Mv in E. injection E as <-. cbn [fd_matched fd_unmatched fd_match app].
  exists (firstn c1 org), (skipn c1 (firstn c2 org)), (skipn c2 org), q. rewrite <- app_assoc. split; [now apply firstn_skipn_mid|]. split; [|auto].
  intros pp l r Eo. rewrite <- firstn_skipn_mid in Eo by exact C12. rewrite firstn_length, skipn_length, firstn_length, !Nat.min_l by lia.
  unfold touches. rewrite Eo in B. pose proof (count_lines pp l r (m_start m + 1) B) as K1. rewrite <- Eo in K1. fold c1 in K1.
  assert (K2 : length pp < c2 <-> size pp < S e).
  { unfold c2. destruct pp as [|x0 x] using rev_ind; [cbn; lia|]. rewrite <- app_assoc in Eo. cbn [app] in Eo. pose proof B as B'. rewrite <- app_assoc in B'. cbn [app] in B'.
    pose proof (count_lines x x0 (l :: r) e B') as K. rewrite <- Eo in K. rewrite app_length. cbn [length]. lia. }
  lia.
Qed.
Lemma search_one p buf org f : search p buf org = Some f -> length org <= 1 -> fd_matched f = org /\ fd_unmatched f = [] /\ p buf = Some (fd_match f).
Proof.
  unfold search. destruct (p buf) as [m|]; [|discriminate]. intros E L. apply Nat.leb_le in L. rewrite L in E. injection E as <-. auto.
Qed.
Lemma search_match p buf org f : search p buf org = Some f -> p buf = Some (fd_match f).
Proof. unfold search. destruct (p buf) as [m|]; [|discriminate]. intros [= <-]. destruct (_ <=? _); [reflexivity|]. destruct (move_skipped _ _ _ _). reflexivity. Qed.

(** ** splitlines *)
Lemma splitlines_cons t s : no_line_end t -> splitlines (t ++ nl :: s) = t :: splitlines s.
Proof.
  induction t as [|c t IH]; intros N; cbn [app].
  - cbn [splitlines]. replace (line_end nl) with true by reflexivity. destruct s; reflexivity.
  - cbn [splitlines]. rewrite (N c) by now left. rewrite IH; [reflexivity|]. intros x I. apply N. now right.
Qed.
Lemma splitlines_lines ts : Forall no_line_end ts -> splitlines (concat (map (fun t => t ++ [nl]) ts)) = ts.
Proof.
  induction 1 as [|t ts N F IH]; [reflexivity|]. cbn [map concat]. rewrite <- app_assoc. cbn [app]. now rewrite splitlines_cons, IH.
Qed.
Lemma skipped_spec m ts : skips m ts -> skipped_lines m = ts.
Proof.
  intros (F & g & <- & E). unfold skipped_lines. rewrite E, map_map. rewrite <- (splitlines_lines (concat g)) by exact F. f_equal. clear.
  induction g as [|x g IH]; [reflexivity|]. cbn [map concat]. rewrite map_app, concat_app. now rewrite IH.
Qed.
