(** The search, and which of the ways is taken. *)
From Coq Require Import ZifyBool ZifyNat.
From Verif Require Import Base Text Strptime_Model Strptime_Spec Template_Model Template_Spec Template_Proofs Template_Proofs2 Template_Proofs3 Template_Proofs4 Template_Proofs5.
Local Open Scope string_scope. Local Open Scope list_scope. Local Open Scope nat_scope.

Definition results (T : template) (y : Z) (before s : text) : list found :=
  flat_map (fun n0 =>
    flat_map (fun '(n, g) =>
      let b := before ++ firstn n0 s in let d := firstn n (skipn n0 s) in let a := skipn n (skipn n0 s) in
      if end_ok (fin T) (b ++ d) a then [mkF b d a g] else [])
    (ways (ci T) y (items T) (skipn n0 s)))
  (begin_ways (beg T) before s).
Lemma find_results T y before s : find_at T y before s = hd_error (results T y before s).
Proof. reflexivity. Qed.
Lemma app_firstn {A} (a b : list A) : firstn (length a) (a ++ b) = a.
Proof. rewrite firstn_app, Nat.sub_diag, firstn_all, firstn_O. apply app_nil_r. Qed.
Lemma app_skipn {A} (a b : list A) : skipn (length a) (a ++ b) = b.
Proof. rewrite skipn_app, Nat.sub_diag, skipn_all. reflexivity. Qed.
Lemma results_iff T y before s f : started y -> In f (results T y before s) <->
  exists p, s = p ++ f_date f ++ f_after f /\ f_before f = before ++ p /\ begin_at (beg T) before p (f_date f ++ f_after f) /\
    wrote y (ci T) (items T) (f_date f) (f_groups f) /\ ends_well (fin T) (f_before f ++ f_date f) (f_after f).
Proof.
  intros Y. unfold results. rewrite in_flat_map. split.
  - intros (n0 & B & I). apply in_flat_map in I as ([n g] & W & I). cbn zeta in I.
    destruct (end_ok (fin T) _ _) eqn:E in I; [|destruct I]. destruct I as [<-|[]]. cbn [f_date f_after f_before f_groups].
    apply begin_iff in B as [L0 B]. apply ways_iff in W as [L W]; [|exact Y]. exists (firstn n0 s). rewrite !firstn_skipn.
    split; [reflexivity|]. split; [reflexivity|]. split; [exact B|]. split; [exact W|]. now apply end_iff.
  - intros (p & E & FB & B & W & X). destruct f as [fb d a g]. cbn [f_date f_after f_before f_groups] in *. subst fb. exists (length p).
    split; [apply begin_iff; subst s; rewrite app_firstn, app_skipn; split; [rewrite app_length; lia|exact B]|].
    apply in_flat_map. exists (length d, g). subst s. rewrite !app_skipn, !app_firstn. split.
    + apply ways_iff; [exact Y|]. rewrite app_firstn. split; [rewrite app_length; lia|exact W].
    + cbn zeta. rewrite (proj2 (end_iff _ _ _) X). now left.
Qed.
Lemma field_nonempty y ci t : started y -> ~ field_text y ci t [].
Proof.
  intros Y F. apply field_iff in F; [|exact Y].
  assert (X : t = ExY \/ t <> ExY) by (destruct t; first [now left|now right]). destruct X as [->|X].
  - cbn [token_re lang] in F. destruct F as (u & v & E & _ & c & -> & _). now destruct u.
  - apply lens_whole in F. rewrite (token_re_year y 0 t X) in F. destruct t, ci; try congruence; vm_compute in F; exact F.
Qed.
Lemma wrote_nonempty y ci l d g : started y -> l <> [] -> wrote y ci l d g -> d <> [].
Proof.
  intros Y N W. destruct W as [| | |t b v l s g B F W]; [congruence|discriminate|discriminate|].
  intros E. apply app_eq_nil in E as [_ E]. apply app_eq_nil in E as [-> _]. now apply field_nonempty in F.
Qed.
(** what is found at a place is a date in the line; and a date in the line is among what is tried at its place *)
Lemma result_date T y before s f : started y -> items T <> [] -> In f (results T y before s) ->
  date_in T y (before ++ s) (f_before f) (f_date f) (f_after f) (f_groups f).
Proof.
  intros Y N I. apply results_iff in I as (p & -> & FB & B & W & X); [|exact Y]. unfold date_in. rewrite FB, <- app_assoc.
  split; [reflexivity|]. split; [exact W|]. split; [|now rewrite <- FB].
  pose proof (wrote_nonempty _ _ _ _ _ Y N W) as ND.
  destruct (beg T); cbn [begin_at begins_well] in *.
  - destruct B as [-> B]. rewrite app_nil_r. apply begin_word; [|exact B]. destruct (f_date f); [congruence|discriminate].
  - destruct B as [-> B]. exact B.
  - exact Logic.I.
  - destruct B as [-> ->]. reflexivity.
Qed.
Definition place (T : template) (b : text) : text := match beg T with BStart => [] | _ => b end.
Lemma date_result T y line b d a g : started y -> items T <> [] -> date_in T y line b d a g ->
  exists s, line = place T b ++ s /\ In (mkF b d a g) (results T y (place T b) s).
Proof.
  intros Y N (-> & W & B & X). pose proof (wrote_nonempty _ _ _ _ _ Y N W) as ND. unfold place.
  assert (NE : d ++ a <> []) by (destruct d; [congruence|discriminate]).
  destruct (beg T) eqn:E; cbn [begins_well] in B.
  - exists (d ++ a). split; [reflexivity|]. apply results_iff; [exact Y|]. exists []. cbn. rewrite app_nil_r, E. cbn. split; [reflexivity|]. split; [reflexivity|].
    split; [split; [reflexivity|now apply begin_word]|]. auto.
  - exists (b ++ d ++ a). split; [reflexivity|]. apply results_iff; [exact Y|]. exists b. cbn. rewrite E. cbn. split; [reflexivity|]. split; [reflexivity|].
    split; [split; [reflexivity|exact B]|]. auto.
  - exists (d ++ a). split; [reflexivity|]. apply results_iff; [exact Y|]. exists []. cbn. rewrite app_nil_r, E. cbn. auto 8.
  - subst b. exists (d ++ a). split; [reflexivity|]. apply results_iff; [exact Y|]. exists []. cbn. rewrite E. cbn. auto 8.
Qed.
Lemma search_spec T y : forall s before,
  match search T y before s with
  | Some f => exists p q, s = p ++ q /\ find_at T y (before ++ p) q = Some f /\
                forall p' q', s = p' ++ q' -> length p' < length p -> find_at T y (before ++ p') q' = None
  | None => forall p q, s = p ++ q -> find_at T y (before ++ p) q = None
  end.
Proof.
  induction s as [|c s IH]; intros before; cbn [search].
  - destruct (find_at T y before []) as [f|] eqn:E.
    + exists [], []. rewrite (app_nil_r before). split; [reflexivity|]. split; [exact E|]. intros p' q' _ L. cbn in L. lia.
    + intros p q H. symmetry in H. apply app_eq_nil in H as [-> ->]. now rewrite app_nil_r.
  - destruct (find_at T y before (c :: s)) as [f|] eqn:E.
    + exists [], (c :: s). rewrite (app_nil_r before). split; [reflexivity|]. split; [exact E|]. intros p' q' _ L. cbn in L. lia.
    + specialize (IH (before ++ [c])). destruct (search T y (before ++ [c]) s) as [f|].
      * destruct IH as (p & q & -> & F & M). exists (c :: p), q. rewrite <- app_assoc in F. split; [reflexivity|]. split; [exact F|].
        intros p' q' H L. destruct p' as [|x p']; cbn [app] in H; [subst q'; now rewrite app_nil_r|].
        injection H as <- H. specialize (M p' q' H). rewrite <- app_assoc in M. apply M. cbn in L. lia.
      * intros p q H. destruct p as [|x p]; cbn [app] in H; [subst q; now rewrite app_nil_r|]. injection H as <- H.
        specialize (IH p q H). now rewrite <- app_assoc in IH.
Qed.
Lemma hd_none {A} (l : list A) : hd_error l = None -> l = [].
Proof. destruct l; [reflexivity|discriminate]. Qed.
Lemma hd_in {A} (l : list A) a : hd_error l = Some a -> In a l.
Proof. destruct l; [discriminate|]. cbn. intros [= ->]. now left. Qed.
Lemma found_date T y line f : started y -> items T <> [] -> match_date T y line = Some f ->
  date_in T y line (f_before f) (f_date f) (f_after f) (f_groups f).
Proof.
  intros Y N H. unfold match_date in H. pose proof (search_spec T y line []) as S0. rewrite H in S0. destruct S0 as (p & q & -> & F & _).
  rewrite find_results in F. apply hd_in in F. now apply (result_date T y p q f Y N) in F.
Qed.
Lemma date_found T y line b d a g : started y -> items T <> [] -> date_in T y line b d a g -> match_date T y line <> None.
Proof.
  intros Y N H E. destruct (date_result T y line b d a g Y N H) as (s & -> & I).
  pose proof (search_spec T y (place T b ++ s) []) as S0. unfold match_date in E. rewrite E in S0. specialize (S0 _ _ eq_refl).
  rewrite find_results in S0. apply hd_none in S0. cbn [app] in S0. rewrite S0 in I. destruct I.
Qed.
Lemma found_first T y line f b d a g : started y -> items T <> [] -> beg T <> BStart -> match_date T y line = Some f ->
  date_in T y line b d a g -> length (f_before f) <= length b.
Proof.
  intros Y N NS H D0. destruct (date_result T y line b d a g Y N D0) as (s & E & I).
  pose proof (search_spec T y line []) as S0. unfold match_date in H. rewrite H in S0. destruct S0 as (p & q & E' & F & M). cbn [app] in F, M.
  rewrite find_results in F. apply hd_in in F. apply results_iff in F as (p0 & _ & FB & B & _); [|exact Y].
  assert (PB : f_before f = p).
  { destruct (beg T); cbn in B; [destruct B as [-> _]|congruence|subst p0|destruct B as [_ ->]]; rewrite FB; apply app_nil_r. }
  assert (PL : place T b = b) by (unfold place; destruct (beg T); congruence || reflexivity).
  rewrite PB. destruct (Nat.le_gt_cases (length p) (length b)) as [L|L]; [exact L|]. exfalso.
  rewrite PL in *. specialize (M b s E L). rewrite find_results in M. apply hd_none in M. rewrite M in I. destruct I.
Qed.

(** * Which way is taken *)
Definition first_way (e : end_) (b0 : text) (s : text) (n : nat) (g : list (string * text)) (W : list (nat * list (string * text))) : Prop :=
  exists pre post, W = pre ++ (n, g) :: post /\ forall m h, In (m, h) pre -> end_ok e (b0 ++ firstn m s) (skipn m s) = false.
Lemma flat_map_split {A B} (f : A -> list B) pre x post : flat_map f (pre ++ x :: post) = flat_map f pre ++ f x ++ flat_map f post.
Proof. rewrite flat_map_app. reflexivity. Qed.
Lemma combine e b0 y ci i l u w g1 n2 g2 pre post :
  item_ways ci y i (u ++ w) = pre ++ (length u, g1) :: post ->
  (forall m h m2 h2, In (m, h) pre -> In (m2, h2) (ways ci y l (skipn m (u ++ w))) ->
     end_ok e (b0 ++ firstn (m + m2) (u ++ w)) (skipn (m + m2) (u ++ w)) = false) ->
  first_way e (b0 ++ u) w n2 g2 (ways ci y l w) ->
  first_way e b0 (u ++ w) (length u + n2) (g1 ++ g2) (ways ci y (i :: l) (u ++ w)).
Proof.
  intros I P (pr & po & W & F). cbn [ways]. rewrite I, flat_map_split, app_skipn, W, map_app. cbn [map].
  match goal with |- first_way _ _ _ _ _ (?A ++ (?B ++ ?x :: ?C) ++ ?F) =>
    exists (A ++ B), (C ++ F); split; [rewrite <- !app_assoc; reflexivity|] end.
  intros m h H. apply in_app_iff in H as [H|H].
  - apply in_flat_map in H as ([m1 h1] & H1 & H2). apply in_map_iff in H2 as ([m2 h2] & [= <- <-] & H2). now apply (P m1 h1 m2 h2).
  - apply in_map_iff in H as ([m2 h2] & [= <- <-] & H). specialize (F m2 h2 H). rewrite firstn_add, app_firstn, <- skipn_add, app_skipn, app_assoc. exact F.
Qed.
(** a field that cannot begin with [c] *)
Definition rejects (y : Z) (ci : bool) (t : token) (c : ascii) : Prop := forall s, lens ci (token_re y t) (c :: s) = [].
Definition rejects_b (ci : bool) (t : token) (c : ascii) : bool :=
  forallb (fun f => negb (f c)) (nexts ci (token_re 0 t) []) && match lens ci (token_re 0 t) [] with [] => true | _ => false end.
Lemma rejects_spec y ci t c : t <> ExY -> rejects_b ci t c = true -> rejects y ci t c.
Proof.
  intros N H s. rewrite (token_re_year y 0 t N). apply andb_true_iff in H as [A B]. change (c :: s) with ([] ++ c :: s).
  rewrite nexts_stop; [destruct (lens ci (token_re 0 t) []); [reflexivity|discriminate]|]. intros f F. eapply forallb_forall in A; [|exact F]. now destruct (f c).
Qed.
Lemma letters_first : forallb (fun t => forallb (fun ci => forallb (fun c => negb (is_digit c || eqb c ":"%char) || rejects_b ci t c) chars) [true; false])
    [Ta; TA; Tb; TB; Tp; Tz] = true.
Proof. vm_cast_no_check (eq_refl true). Qed.
Lemma letter_rejects y ci t c : In t [Ta; TA; Tb; TB; Tp; Tz] -> is_digit c = true \/ c = ":"%char -> rejects y ci t c.
Proof.
  intros T H. apply rejects_spec; [intros ->; cbn in T; intuition discriminate|]. pose proof letters_first as A.
  pose proof (proj1 (forallb_forall _ _) A t T) as A1. cbn beta in A1.
  assert (C : In ci [true; false]) by (destruct ci; cbn; auto).
  pose proof (proj1 (forallb_forall _ _) A1 ci C) as A2. cbn beta in A2.
  pose proof (proj1 (forallb_forall _ _) A2 c (all_chars c)) as A3. cbn beta in A3.
  destruct H as [H| ->]; [rewrite H in A3; exact A3|]. rewrite eqb_refl, orb_true_r in A3. exact A3.
Qed.
Lemma blank_rejects y ci t : blank_before t = true -> rejects y ci t " "%char.
Proof. intros B. apply rejects_spec; [intros ->; discriminate|]. destruct t; try discriminate B; destruct ci; vm_compute; reflexivity. Qed.
Lemma rejects_field y ci t c s : started y -> rejects y ci t c -> ~ field_text y ci t (c :: s).
Proof. intros Y R F. apply field_iff in F; [|exact Y]. apply lens_whole in F. rewrite R in F. destruct F. Qed.
Lemma lower_back a b : lower_char a = lower_char b -> is_digit a = true \/ a = ":"%char -> a = b.
Proof.
  intros E H.
  assert (X : forall a b, negb (is_digit a || eqb a ":"%char) || negb (eqb (lower_char a) (lower_char b)) || eqb a b = true) by (apply every_char2; vm_cast_no_check (eq_refl true)).
  specialize (X a b). rewrite E, eqb_refl in X. apply eqb_true. destruct H as [H| ->]; [rewrite H in X; exact X|]. rewrite eqb_refl, orb_true_r in X. exact X.
Qed.
Lemma goes_on_is t c : goes_on t c = true -> is_digit c = true \/ c = ":"%char.
Proof. intros H. apply goes_on_iff in H as [_ [H|[_ H]]]; auto. Qed.
Lemma goes_on_same t ci x c : same_char ci x c -> goes_on t c = false -> goes_on t x = false.
Proof.
  intros S0 H. destruct (goes_on t x) eqn:E; [|reflexivity]. destruct S0 as [->|[_ L]]; [congruence|].
  rewrite (lower_back x c L (goes_on_is _ _ E)) in E. congruence.
Qed.
(** the last character of a field that is not fixed *)
Definition last_ok (t : token) : bool :=
  forallb (fun ci => forallb (fun v => wordy (last_char v)) (words ci (token_re 0 t))) [true; false].
Lemma all_last : forallb (fun t => if fixed_b t then true else match t with Tf => true | _ => last_ok t end) tokens = true.
Proof. vm_cast_no_check (eq_refl true). Qed.
Lemma field_last y ci t v : started y -> fixed_b t = false -> field_text y ci t v -> wordy (last_char v) = true.
Proof.
  intros Y FX F. assert (X : t = Tf \/ t <> Tf) by (destruct t; first [now left|now right]). destruct X as [->|X].
  - destruct F as [L F]. destruct (last_char v) as [c|] eqn:E.
    + apply last_some in E as (p & ->). apply Forall_app in F as [_ F]. inversion F as [|? ? Dc _]; subst. cbn. unfold is_word, is_alnum. now rewrite Dc.
    + destruct v as [|x v]; [cbn in L; lia|]. unfold last_char in E. destruct (rev (x :: v)) eqn:R; [|discriminate].
      apply (f_equal (@length ascii)) in R. rewrite rev_length in R. discriminate.
  - pose proof (proj1 (forallb_forall _ _) all_last t (all_tokens t)) as A. cbn beta in A. rewrite FX in A.
    assert (LO : last_ok t = true) by (destruct t; first [discriminate FX | exfalso; apply X; reflexivity | exact A]).
    assert (C : In ci [true; false]) by (destruct ci; cbn; auto).
    unfold last_ok in LO. pose proof (proj1 (forallb_forall _ _) LO ci C) as A2. cbn beta in A2.
    apply field_iff in F; [|exact Y]. rewrite (token_re_year y 0 t) in F by (intros ->; discriminate). apply words_iff in F.
    exact (proj1 (forallb_forall _ _) A2 v F).
Qed.
