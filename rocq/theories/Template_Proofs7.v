(** A date in a clear pattern is read as it was written. *)
From Coq Require Import ZifyBool ZifyNat.
From Verif Require Import Base Text Strptime_Model Strptime_Spec Template_Model Template_Spec Template_Proofs Template_Proofs2 Template_Proofs3 Template_Proofs4 Template_Proofs5 Template_Proofs6.
Local Open Scope string_scope. Local Open Scope list_scope. Local Open Scope nat_scope.

Lemma digit_word c : is_digit c = true -> is_word c = true.
Proof. intros H. unfold is_word, is_alnum. now rewrite H. Qed.
Lemma last_app a b : b <> [] -> last_char (a ++ b) = last_char b.
Proof.
  intros N. unfold last_char. rewrite rev_app_distr. destruct (rev b) eqn:E; [|reflexivity].
  apply (f_equal (@rev ascii)) in E. rewrite rev_involutive in E. cbn in E. congruence.
Qed.
Lemma blank_list ci t b v w y : started y -> may_be_blank t b -> field_text y ci t v ->
  exists more, blank_ways ci t (b ++ v ++ w) = length b :: more.
Proof.
  intros Y B F. unfold blank_ways. destruct B as [->|[-> I]].
  - destruct (blank_before t) eqn:E; [|exists []; reflexivity]. destruct v as [|c v]; [now apply field_nonempty in F|].
    exists []. cbn [app lens one length]. destruct (accepts ci _ c) eqn:A; [|reflexivity]. apply accepts_blank in A as ->.
    exfalso. revert F. apply rejects_field; [exact Y|]. now apply blank_rejects.
  - assert (E : blank_before t = true) by (destruct t; cbn in I; intuition discriminate). rewrite E. exists [0].
    cbn [app lens one length]. assert (A : accepts ci (fun x => eqb x " "%char) " "%char = true) by now apply accepts_blank. now rewrite A.
Qed.
Lemma tok_ways y ci t b v w : started y -> may_be_blank t b -> field_text y ci t v -> (forall c r, w = c :: r -> goes_on t c = false) ->
  exists pre post, item_ways ci y (Tok t) ((b ++ v) ++ w) = pre ++ (length (b ++ v), [(part_of t, v)]) :: post /\
    forall m h, In (m, h) pre -> exists n, m = length b + n /\ fixed_b t = false /\ t <> Tz /\ 1 <= n < length v /\ digit_at n v = true /\ digit_at (n - 1) v = true.
Proof.
  intros Y B F Q. rewrite <- app_assoc. cbn [item_ways].
  change (if blank_before t then lens ci (Opt (one " ")) (b ++ v ++ w) else [0]) with (blank_ways ci t (b ++ v ++ w)).
  destruct (blank_list ci t b v w y Y B F) as (more & ->). cbn [flat_map]. rewrite app_skipn.
  destruct (tok_first y ci t v w Y F Q) as (pre & post & E & P). rewrite E, map_app, (part_name t). cbn [map]. rewrite app_firstn, (app_length b v).
  match goal with |- exists pre post, (?A ++ ?x :: ?C) ++ ?D = _ /\ _ => exists A, (C ++ D); split; [rewrite <- app_assoc; reflexivity|] end.
  intros m h H. apply in_map_iff in H as (n & [= <- <-] & N). destruct (P n N) as (FX & L & D1 & D2). exists n. apply orb_false_iff in FX as [FX Z0].
  split; [reflexivity|]. split; [exact FX|]. split; [intros ->; discriminate|]. auto.
Qed.
Lemma digit_at_split n v : digit_at n v = true -> exists c, is_digit c = true /\ v = firstn n v ++ c :: skipn (S n) v.
Proof.
  unfold digit_at. destruct (nth_error v n) as [c|] eqn:E; [|discriminate]. intros H. exists c. split; [exact H|].
  revert n E. induction v as [|x v IH]; intros [|n] E; cbn in *; try discriminate; [now injection E as ->|]. f_equal. now apply IH.
Qed.
(** at a place where the next character is a digit, nothing that ends the field matches *)
Lemma next_digit y ci t l e a c s b0 : started y -> fixed_b t = false -> ends_there t l e a ->
  is_digit c = true -> wordy (last_char b0) = true ->
  forall m h, In (m, h) (ways ci y l (c :: s)) -> end_ok e (b0 ++ firstn m (c :: s)) (skipn m (c :: s)) = false.
Proof.
  intros Y FX ET DC LB m h W. destruct l as [|[x| |t'] l]; cbn [ends_there] in ET.
  - destruct ET as [FT|[NE _]]; [apply fixed_iff in FT; congruence|]. destruct W as [[= <- <-]|[]]. cbn [firstn skipn]. rewrite app_nil_r.
    destruct e; [|congruence|].
    + destruct (end_ok EWord b0 (c :: s)) eqn:E; [|reflexivity]. apply end_iff in E. exfalso. apply E. apply inside_iff. unfold inside_b. rewrite LB. cbn. now apply digit_word.
    + cbn. destruct s; [|reflexivity]. destruct (eqb_spec c newline) as [->|]; [discriminate|reflexivity].
  - exfalso. cbn [ways] in W. apply in_flat_map in W as ([n g] & I & _). apply item_iff in I as [L (_ & z & E & S0)]; [|exact Y].
    assert (z = c) as -> by (destruct n as [|n]; [discriminate|]; cbn in E; congruence).
    apply ET. apply goes_on_iff. destruct (goes_on t x) eqn:G; [reflexivity|]. apply (goes_on_same t ci c x S0) in G. unfold goes_on in G. rewrite FX, DC in G. discriminate.
  - apply fixed_iff in ET. congruence.
  - destruct ET as [FT|IT]; [apply fixed_iff in FT; congruence|]. exfalso. cbn [ways] in W. apply in_flat_map in W as ([n g] & I & _).
    cbn [item_ways] in I. assert (NB : blank_before t' = false) by (destruct t'; cbn in IT; intuition discriminate). rewrite NB in I. cbn [flat_map skipn] in I.
    rewrite (letter_rejects y ci t' c IT (or_introl DC) s) in I. destruct I.
Qed.
(** what follows the field does not continue it *)
Lemma next_stops y ci t l e a v s g b0 : started y -> ends_there t l e a -> field_text y ci t v -> wrote y ci l s g ->
  ends_well e (b0 ++ v ++ s) a -> forall c r, s ++ a = c :: r -> goes_on t c = false.
Proof.
  intros Y ET F W X c r E. destruct (fixed_b t) eqn:FX; [unfold goes_on; now rewrite FX|].
  assert (NF : ~ fixed t) by (rewrite fixed_iff; congruence).
  destruct W as [|c0 x l s g S0 W|x l s g NX W|t' b v' l s g B F' W]; cbn [ends_there] in ET.
  - destruct ET as [FT|[NE C]]; [contradiction|]. cbn [app] in E. subst a. rewrite app_nil_r in X.
    destruct (goes_on t c) eqn:G; [|reflexivity]. exfalso. pose proof (proj2 (goes_on_iff t c) G) as [_ [D0|[-> ->]]]; [|now apply C].
    destruct e; [|congruence|].
    + apply X. apply inside_iff. unfold inside_b. rewrite last_app by (intros ->; now apply field_nonempty in F). rewrite (field_last y ci t v Y FX F). cbn. now apply digit_word.
    + destruct X as [X|X]; [discriminate|]. injection X as -> _. discriminate.
  - cbn [app] in E. injection E as <- _. apply (goes_on_same t ci x c0 S0). destruct (goes_on t c0) eqn:G; [|reflexivity]. exfalso. apply ET. now apply goes_on_iff.
  - contradiction.
  - destruct ET as [FT|IT]; [contradiction|]. assert (b = []) as ->.
    { destruct B as [->|[_ I]]; [reflexivity|]. exfalso. destruct t'; cbn in I, IT; intuition discriminate. }
    destruct v' as [|x v']; [now apply field_nonempty in F'|]. cbn [app] in E. injection E as <- _.
    destruct (goes_on t x) eqn:G; [|reflexivity]. exfalso. revert F'. apply rejects_field; [exact Y|]. apply letter_rejects; [exact IT|]. now apply (goes_on_is t).
Qed.
Lemma clear_first y ci e a : started y -> forall l d g b0, clear l e a -> wrote y ci l d g -> ends_well e (b0 ++ d) a ->
  first_way e b0 (d ++ a) (length d) g (ways ci y l (d ++ a)).
Proof.
  intros Y. induction l as [|i l IH]; intros d g b0 C W X.
  - inversion W; subst. exists [], []. split; [reflexivity|]. intros m h [].
  - destruct i as [c| |t].
    + inversion W as [|? x ? s ? S0 W'| |]; subst. change ((x :: s) ++ a) with ([x] ++ (s ++ a)). change (length (x :: s)) with (length [x] + length s). change g with ([] ++ g).
      apply combine with (pre := []) (post := []).
      * cbn [item_ways app lens one map]. apply same_char_iff in S0. now rewrite S0.
      * intros m h m2 h2 [].
      * apply IH; [exact C|exact W'|]. now rewrite <- app_assoc.
    + inversion W as [| |x ? s ? S0 W'|]; subst. change ((x :: s) ++ a) with ([x] ++ (s ++ a)). change (length (x :: s)) with (length [x] + length s). change g with ([] ++ g).
      apply combine with (pre := []) (post := []).
      * cbn [item_ways app lens map]. apply (accepts_any ci) in S0. now rewrite S0.
      * intros m h m2 h2 [].
      * apply IH; [exact C|exact W'|]. now rewrite <- app_assoc.
    + inversion W as [| | |? b v ? s g' B F W']; subst. destruct C as [ET C].
      assert (Q : forall c r, s ++ a = c :: r -> goes_on t c = false).
      { apply (next_stops y ci t l e a v s g' (b0 ++ b)); [exact Y|exact ET|exact F|exact W'|]. now rewrite <- app_assoc. }
      destruct (tok_ways y ci t b v (s ++ a) Y B F Q) as (pre & post & I & P).
      replace ((b ++ v ++ s) ++ a) with ((b ++ v) ++ (s ++ a)) by now rewrite <- !app_assoc.
      replace (length (b ++ v ++ s)) with (length (b ++ v) + length s) by (rewrite !app_length; lia).
      change ((part_of t, v) :: g') with ([(part_of t, v)] ++ g'). apply combine with (pre := pre) (post := post); [exact I| |].
      * intros m h m2 h2 H H2. destruct (P m h H) as (n & -> & FX & NZ & L & D1 & D2). destruct (digit_at_split n v D1) as (c & DC & EV).
        destruct (digit_at_split (n - 1) v D2) as (c' & DC' & EV').
        assert (SK : forall k, skipn (length b + n + k) ((b ++ v) ++ s ++ a) = skipn k (c :: skipn (S n) v ++ s ++ a)).
        { intros k. rewrite <- skipn_add. f_equal. rewrite <- app_assoc, <- skipn_add, app_skipn. rewrite EV at 1. rewrite <- app_assoc.
          replace n with (length (firstn n v)) at 1 by (apply firstn_length_le; lia). rewrite app_skipn. reflexivity. }
        assert (FI : forall k, firstn (length b + n + k) ((b ++ v) ++ s ++ a) = (b ++ firstn n v) ++ firstn k (c :: skipn (S n) v ++ s ++ a)).
        { intros k. rewrite firstn_add. f_equal.
          - rewrite <- app_assoc, firstn_add, app_firstn, app_skipn. f_equal. rewrite firstn_app. replace (n - length v) with 0 by lia. rewrite firstn_O. apply app_nil_r.
          - f_equal. specialize (SK 0). rewrite Nat.add_0_r in SK. exact SK. }
        rewrite SK, FI, app_assoc. pose proof (SK 0) as SK0. rewrite Nat.add_0_r in SK0. cbn [skipn] in SK0. rewrite SK0 in H2.
        refine (next_digit y ci t l e a c (skipn (S n) v ++ s ++ a) (b0 ++ b ++ firstn n v) Y FX ET DC _ m2 h2 H2).
        assert (FN : firstn n v = firstn (n - 1) v ++ [c']).
        { rewrite EV' at 1. rewrite firstn_app. rewrite firstn_length_le by lia. replace (n - (n - 1)) with 1 by lia. rewrite firstn_firstn. replace (Nat.min n (n - 1)) with (n - 1) by lia. reflexivity. }
        rewrite FN, !app_assoc, last_snoc. cbn. now apply digit_word.
      * apply IH; [exact C|exact W'|]. rewrite <- !app_assoc. exact X.
Qed.
Lemma first_found e y ci l b0 d a g : first_way e b0 (d ++ a) (length d) g (ways ci y l (d ++ a)) -> ends_well e (b0 ++ d) a ->
  hd_error (flat_map (fun '(n, g) => if end_ok e (b0 ++ firstn n (d ++ a)) (skipn n (d ++ a)) then [mkF b0 (firstn n (d ++ a)) (skipn n (d ++ a)) g] else []) (ways ci y l (d ++ a)))
  = Some (mkF b0 d a g).
Proof.
  intros (pre & post & E & P) X. rewrite E, flat_map_split.
  assert (N : flat_map (fun '(n, g) => if end_ok e (b0 ++ firstn n (d ++ a)) (skipn n (d ++ a)) then [mkF b0 (firstn n (d ++ a)) (skipn n (d ++ a)) g] else []) pre = []).
  { clear E. induction pre as [|[n h] pre IH]; [reflexivity|]. cbn [flat_map]. rewrite (P n h (or_introl eq_refl)). apply IH. intros m k H. apply (P m k). now right. }
  rewrite N. cbn [app]. rewrite app_firstn, app_skipn, (proj2 (end_iff _ _ _) X). reflexivity.
Qed.
Lemma hd_app {A} (l m : list A) x : hd_error l = Some x -> hd_error (l ++ m) = Some x.
Proof. now destruct l. Qed.
(** A date that begins where none begins before it *)
Lemma read_at T y line b d a g : started y -> items T <> [] -> clear (items T) (fin T) a -> date_in T y line b d a g ->
  match beg T with
  | BStart => exists c r, d = c :: r /\ word_char c
  | _ => forall b' d' a' g', date_in T y line b' d' a' g' -> length b <= length b'
  end -> match_date T y line = Some (mkF b d a g).
Proof.
  intros Y N C D0 FI. pose proof D0 as (EL & W & B & X).
  destruct (match_date T y line) as [f|] eqn:M; [|now apply (date_found T y line b d a g Y N D0) in M].
  pose proof (search_spec T y line []) as S0. unfold match_date in M. rewrite M in S0. destruct S0 as (p & q & E & FA & MIN). cbn [app] in FA, MIN.
  assert (XF : first_way (fin T) b (d ++ a) (length d) g (ways (ci T) y (items T) (d ++ a))) by now apply clear_first.
  pose proof (first_found (fin T) y (ci T) (items T) b d a g XF X) as HF.
  destruct (date_result T y line b d a g Y N D0) as (s & ES & IS).
  assert (PP : p = place T b).
  { pose proof FA as FA'. rewrite find_results in FA'. apply hd_in in FA'. pose proof (result_date T y p q f Y N FA') as DF. rewrite <- E in DF.
    apply results_iff in FA' as (p0 & _ & FB & BA & _); [|exact Y].
    unfold place in *. destruct (beg T) eqn:EB; cbn [begin_at] in BA.
    - destruct BA as [-> _]. rewrite app_nil_r in FB. specialize (FI _ _ _ _ DF). rewrite FB in FI.
      destruct (Nat.eq_dec (length p) (length b)) as [L|L].
      + assert (firstn (length p) line = p) by (rewrite E; apply app_firstn). assert (firstn (length b) line = b) by (rewrite ES; apply app_firstn). congruence.
      + assert (L' : length b < length p) by lia. specialize (MIN b s ES L'). rewrite find_results in MIN. apply hd_none in MIN. rewrite MIN in IS. destruct IS.
    - now destruct BA.
    - subst p0. rewrite app_nil_r in FB. specialize (FI _ _ _ _ DF). rewrite FB in FI.
      destruct (Nat.eq_dec (length p) (length b)) as [L|L].
      + assert (firstn (length p) line = p) by (rewrite E; apply app_firstn). assert (firstn (length b) line = b) by (rewrite ES; apply app_firstn). congruence.
      + assert (L' : length b < length p) by lia. specialize (MIN b s ES L'). rewrite find_results in MIN. apply hd_none in MIN. rewrite MIN in IS. destruct IS.
    - destruct BA as [-> _]. cbn in B. now subst b. }
  rewrite <- FA. rewrite PP in *. assert (q = s) by (rewrite ES in E; now apply app_inv_head in E). subst q.
  unfold find_at. unfold place in *. destruct (beg T) eqn:EB; cbn [begin_ways].
  - assert (s = d ++ a) as -> by (rewrite ES in EL; now apply app_inv_head in EL).
    assert (BW : starts b || boundary b (d ++ a) || nonword_next (d ++ a) = true).
    { apply begin_word; [|exact B]. pose proof (wrote_nonempty _ _ _ _ _ Y N W). destruct d; [congruence|discriminate]. }
    rewrite BW. cbn [flat_map firstn skipn]. rewrite app_nil_r, (app_nil_r b). exact HF.
  - cbn [app] in ES. subst s. destruct FI as (c & r & -> & WC). cbn [starts]. cbn [begins_well] in B. destruct B as [L2 NW].
    assert (RB : run_of (accepts false (fun c => negb (is_word c))) line = length b).
    { rewrite EL. clear - NW WC. induction NW as [|x b NX NW IH]; cbn [app run_of].
      - cbn [accepts]. apply word_iff in WC. now rewrite WC.
      - apply accepts_nonword in NX. rewrite NX. cbn [length]. f_equal. exact IH. }
    cbn [lens]. rewrite RB. replace (Nat.min 2 (length b)) with (length b) by lia.
    assert (DL : exists more, down 0 (length b) = length b :: more) by (destruct (length b); cbn; eauto). destruct DL as (more & ->). cbn [app flat_map].
    apply hd_app. subst line. rewrite !app_firstn, !app_skipn. exact HF.
  - assert (s = d ++ a) as -> by (rewrite ES in EL; now apply app_inv_head in EL). cbn [flat_map firstn skipn]. rewrite app_nil_r, (app_nil_r b). exact HF.
  - cbn in B. subst b. assert (s = d ++ a) as -> by (rewrite ES in EL; now apply app_inv_head in EL). cbn [starts flat_map firstn skipn app]. rewrite app_nil_r. exact HF.
Qed.
