(** Proofs for lists of words. *)
From Verif Require Import Base Text Backtrack Options_Model Options_Spec Options_Proofs.
Require Import ZifyBool ZifyNat.

Lemma between_sep c : between c <-> is_sep c = true.
Proof.
  unfold between, is_sep, one_of. cbn. rewrite orb_false_r, orb_true_iff, blank_space. split; (intros [H|H]; [now left|right]).
  - subst. apply eqb_refl.
  - now apply eqb_true in H.
Qed.
Lemma nonsep c : ~ between c <-> is_sep c = false.
Proof. rewrite between_sep. destruct (is_sep c); split; congruence. Qed.

Definition emit (cur : text) (l : list text) : list text := match cur with [] => l | _ => rev cur :: l end.
Fixpoint ws (cur : text) (s : text) : list text :=
  match s with
  | [] => emit cur []
  | c :: r => if is_sep c then emit cur (ws [] r) else ws (c :: cur) r
  end.
Lemma emit_app cur l : emit cur l = emit cur [] ++ l.
Proof. destruct cur; reflexivity. Qed.

Lemma strip_word s : Forall (fun c => is_sep c = false) s -> strip s = s.
Proof.
  intros F. assert (K : forall m, Forall (fun c => is_sep c = false) m -> lstrip m = m).
  { intros m Fm. destruct m as [|c m]; [reflexivity|]. inversion Fm as [|? ? H _]; subst. cbn. unfold is_sep in H. now destruct (is_space c). }
  unfold strip. rewrite (K s F), (K (rev s)) by now apply Forall_rev. apply rev_involutive.
Qed.
Lemma ws_run s : ws [] s = ws [] (snd (run is_sep s)).
Proof.
  induction s as [|c s IH]; [reflexivity|]. cbn [ws run]. destruct (is_sep c) eqn:E.
  - cbn [emit]. rewrite IH. destruct (run is_sep s). reflexivity.
  - cbn [snd ws]. now rewrite E.
Qed.
Lemma re_split_ws : forall fuel cur s, (length s < fuel)%nat -> Forall (fun c => is_sep c = false) cur ->
  filter nonempty (map strip (re_split fuel cur s)) = ws cur s.
Proof.
  assert (One : forall cur l, Forall (fun c => is_sep c = false) cur -> filter nonempty (map strip (rev cur :: l)) = emit cur (filter nonempty (map strip l))).
  { intros cur l F. cbn [map]. rewrite strip_word by now apply Forall_rev. cbn [filter]. destruct cur as [|c cur]; [reflexivity|].
    cbn [emit]. destruct (rev (c :: cur)) eqn:E; [|reflexivity]. apply (f_equal (@length _)) in E. rewrite rev_length in E. discriminate. }
  induction fuel as [|fuel IH]; intros cur s L F; [lia|]. cbn [re_split]. unfold many1, cat, chr. destruct s as [|c s].
  - rewrite One by exact F. reflexivity.
  - cbn in L. cbn [ws]. destruct (is_sep c) eqn:E.
    + rewrite many_total by discriminate. rewrite One by exact F. f_equal. rewrite IH; [|pose proof (run_spec is_sep s) as (Es & _); apply (f_equal (@length _)) in Es; rewrite app_length in Es; lia|constructor].
      now rewrite <- ws_run.
    + apply IH; [lia|]. now constructor.
Qed.
Lemma splitwords_ws s : splitwords s false = ws [] s.
Proof. destruct s as [|c s]; [reflexivity|]. unfold splitwords. apply re_split_ws; [lia|constructor]. Qed.

Lemma ws_gap g s : gap g -> ws [] (g ++ s) = ws [] s.
Proof. induction 1 as [|c g B _ IH]; [reflexivity|]. cbn [app ws]. apply between_sep in B. now rewrite B. Qed.
Lemma ws_word w s cur : Forall (fun c => ~ between c) w -> ws cur (w ++ s) = ws (rev w ++ cur) s.
Proof.
  intros F. revert cur. induction F as [|c w B _ IH]; intros cur; [reflexivity|]. cbn [app ws]. apply nonsep in B. rewrite B, IH. cbn [rev]. now rewrite <- app_assoc.
Qed.
Lemma emit_word w l : w <> [] -> emit (rev w ++ []) l = w :: l.
Proof.
  intros N. rewrite app_nil_r. unfold emit. destruct (rev w) eqn:E; [|now rewrite <- E, rev_involutive].
  apply (f_equal (@rev _)) in E. rewrite rev_involutive in E. contradiction.
Qed.
Lemma words_ws s l : words_text s l -> ws [] s = l.
Proof.
  induction 1 as [g G|g w G [N F]|g w h rest l G [N F] H NH _ IH].
  - rewrite <- (app_nil_r g). now rewrite ws_gap.
  - rewrite ws_gap by exact G. rewrite <- (app_nil_r w) at 1. rewrite ws_word by exact F. cbn [ws]. now apply emit_word.
  - rewrite ws_gap by exact G. rewrite ws_word by exact F. destruct h as [|c h]; [congruence|]. cbn [app ws]. apply Forall_cons_iff in H as [B G'].
    apply between_sep in B. rewrite B. rewrite emit_word by exact N. now rewrite ws_gap, IH by exact G'.
Qed.
Lemma words_exist : forall n s, (length s < n)%nat -> exists l, words_text s l.
Proof.
  induction n as [|n IH]; intros s L; [lia|].
  pose proof (run_spec is_sep s) as (E & F & St). destruct (run is_sep s) as [g s1]. cbn [fst snd] in *.
  assert (G : gap g) by (eapply Forall_impl; [|exact F]; intros c; apply between_sep).
  destruct s1 as [|c s1]; [exists []; subst s; rewrite app_nil_r; exact (W_none g G)|].
  pose proof (run_spec (fun c => negb (is_sep c)) (c :: s1)) as (E2 & F2 & St2). destruct (run _ (c :: s1)) as [w s2] eqn:R. cbn [fst snd] in *.
  assert (W : word w).
  { split; [|eapply Forall_impl; [|exact F2]; intros d Hd; apply nonsep; cbn beta in Hd; now destruct (is_sep d)].
    intros ->. cbn in R. cbn in St. rewrite St in R. cbn in R. destruct (run _ s1). discriminate. }
  destruct s2 as [|d s2].
  - rewrite app_nil_r in E2. exists [w]. rewrite E, E2. exact (W_one g w G W).
  - destruct (IH s2) as (l & O). { apply (f_equal (@length _)) in E, E2. rewrite app_length in E, E2. cbn in *. lia. }
    exists (w :: l). rewrite E, E2. change (d :: s2) with ([d] ++ s2). constructor; auto; [|discriminate].
    constructor; [|constructor]. apply between_sep. cbn in St2. now destruct (is_sep d).
Qed.
Theorem words_exact s l : splitwords s false = l <-> words_text s l.
Proof.
  rewrite splitwords_ws. split; [|apply words_ws]. intros <-. destruct (words_exist (S (length s)) s ltac:(lia)) as (l & O). now rewrite (words_ws _ _ O).
Qed.

(** ** Comments *)
Inductive mode := Skip | Fresh (b : bool).
Fixpoint wc (cur : text) (m : mode) (s : text) : list text :=
  match s with
  | [] => emit cur []
  | c :: r =>
      match m with
      | Skip => if eqb c newline then emit cur (wc [] (Fresh true) r) else wc cur Skip r
      | Fresh b => if b && is_hash c then emit cur (wc [] Skip r)
                   else if is_sep c then emit cur (wc [] (Fresh (is_space c)) r) else wc (c :: cur) (Fresh false) r
      end
  end.
Lemma hash_plain c : is_hash c = true -> is_space c = false /\ is_sep c = false.
Proof.
  unfold is_hash, one_of. cbn. rewrite orb_false_r. intros H. apply orb_true_iff in H as [H|H]; apply eqb_true in H; subst; split; reflexivity.
Qed.
Lemma wc_skip cur r : wc cur Skip r = match snd (run (but [newline]) r) with [] => emit cur [] | _ :: r' => emit cur (wc [] (Fresh true) r') end.
Proof.
  induction r as [|c r IH]; [reflexivity|]. cbn [wc run].
  assert (E : but [newline] c = negb (eqb c newline)) by (unfold but; cbn; now rewrite orb_false_r). rewrite E. destruct (eqb c newline); cbn [negb].
  - reflexivity.
  - rewrite IH. now destruct (run (but [newline]) r).
Qed.
Definition starts_hash (s : text) : bool := match s with c :: _ => is_hash c | [] => false end.
Lemma wc_fresh cur b b' s : starts_hash s = false -> wc cur (Fresh b) s = wc cur (Fresh b') s.
Proof. destruct s as [|c s]; [reflexivity|]. cbn. intros ->. now rewrite !andb_false_r. Qed.

Lemma tail_eq (k : text -> option text) s : (forall r, k r <> None) ->
  (chr is_hash ;; many (but [newline])) _ s k = match s with c :: r => if is_hash c then k (snd (run (but [newline]) r)) else None | [] => None end.
Proof. intros H. unfold cat, chr. destruct s as [|c s]; [reflexivity|]. destruct (is_hash c); [|reflexivity]. now apply many_total. Qed.
Lemma comment_eq bol s : comment_at bol s =
  match s with
  | c :: r => if bol && is_hash c then Some (snd (run (but [newline]) r))
              else if is_space c then match r with h :: r' => if is_hash h then Some (snd (run (but [newline]) r')) else None | [] => None end else None
  | [] => None
  end.
Proof.
  unfold comment_at. assert (K : forall r : text, Some r <> None) by discriminate. 
  assert (T2 : (chr is_space ;; chr is_hash ;; many (but [newline])) _ s Some
     = match s with c :: r => if is_space c then match r with h :: r' => if is_hash h then Some (snd (run (but [newline]) r')) else None | [] => None end else None | [] => None end).
  { destruct s as [|c s]; [reflexivity|]. unfold cat at 1, chr at 1. destruct (is_space c); [|reflexivity]. now rewrite tail_eq. }
  cbn zeta. rewrite T2. destruct bol.
  - rewrite tail_eq by exact K. destruct s as [|c s]; [reflexivity|]. cbn [andb]. destruct (is_hash c); reflexivity.
  - destruct s; reflexivity.
Qed.
Lemma run_len f s : (length (snd (run f s)) <= length s)%nat.
Proof. pose proof (run_spec f s) as (E & _). apply (f_equal (@length _)) in E. rewrite app_length in E. lia. Qed.

Lemma rc_wc : forall fuel bol cur s, (length s < fuel)%nat -> (bol = true -> cur = []) -> ws cur (remove_comments fuel bol s) = wc cur (Fresh bol) s.
Proof.
  induction fuel as [|fuel IH]; intros bol cur s L HB; [lia|]. cbn [remove_comments]. rewrite comment_eq. destruct s as [|c r]; [reflexivity|]. cbn in L.
  assert (After : forall cur r0, (length r0 <= length r)%nat -> ws cur (remove_comments fuel false (snd (run (but [newline]) r0))) = emit cur (wc [] Skip r0)).
  { intros cu r0 L0. pose proof (run_len (but [newline]) r0). rewrite IH by (try discriminate; lia). rewrite wc_skip.
    pose proof (run_spec (but [newline]) r0) as (_ & _ & St). apply but1_stops in St. destruct (snd (run (but [newline]) r0)) as [|d t]; [reflexivity|].
    subst d. cbn [wc andb]. reflexivity. }
  destruct (bol && is_hash c) eqn:E1.
  - cbn [wc]. rewrite E1, After by lia. reflexivity.
  - assert (Keep : (is_space c = true -> starts_hash r = false) -> ws cur (c :: remove_comments fuel (eqb c newline) r) = wc cur (Fresh bol) (c :: r)).
    { intros H. cbn [ws wc]. rewrite E1. destruct (is_sep c) eqn:E2.
      - f_equal. rewrite IH by (auto; lia). destruct (is_space c) eqn:E3; [now apply wc_fresh, H|].
        destruct (eqb_spec c newline) as [->|_]; [discriminate|reflexivity].
      - assert (E4 : eqb c newline = false) by (destruct (eqb_spec c newline) as [->|]; [discriminate|reflexivity]). rewrite E4. apply IH; [lia|discriminate]. }
    destruct (is_space c) eqn:E2; [|apply Keep; discriminate]. destruct r as [|h r']; [apply Keep; reflexivity|]. destruct (is_hash h) eqn:E3; [|apply Keep; auto].
    cbn in After. rewrite After by lia. cbn [wc]. rewrite E1. assert (E4 : is_sep c = true) by (unfold is_sep; now rewrite E2). rewrite E4, E2, E3. cbn [andb emit]. reflexivity.
Qed.
Lemma blank_is c : is_blank c = is_space c.
Proof. reflexivity. Qed.
Lemma hash_is c : is_hash c = eqb c "#"%char || eqb c ";"%char.
Proof. unfold is_hash, one_of. cbn. now rewrite orb_false_r. Qed.
Definition rest_words (l : list text) : list text := flat_map (fun x => ws [] (before_comment true x)) l.
Lemma lines_wc s : match split newline s with
                   | [] => True
                   | f :: rest => (forall cur b, ws cur (before_comment b f) ++ rest_words rest = wc cur (Fresh b) s)
                                  /\ forall cur, emit cur [] ++ rest_words rest = wc cur Skip s
                   end.
Proof.
  induction s as [|c s IH]; [cbn; split; intros; now rewrite app_nil_r|]. cbn [split]. destruct (split newline s) as [|f rest] eqn:Es; [now apply split_nonempty in Es|].
  destruct IH as [IH1 IH2]. rewrite (eqb_sym newline c) || idtac. destruct (eqb_spec c newline) as [->|N].
  - split; intros.
    + cbn [before_comment ws wc rest_words flat_map]. rewrite andb_false_r. cbn [is_sep]. fold (rest_words rest). rewrite IH1. symmetry. apply emit_app.
    + cbn [wc rest_words flat_map]. fold (rest_words rest). rewrite IH1. symmetry. apply emit_app.
  - split; intros.
    + cbn [before_comment]. rewrite <- hash_is. cbn [wc]. destruct (b && is_hash c).
      * cbn [ws]. rewrite (emit_app cur (wc _ _ _)), <- IH2. reflexivity.
      * cbn [ws]. rewrite blank_is. destruct (is_sep c) eqn:E2; [rewrite (emit_app cur (wc _ _ _)), (emit_app cur (ws _ _)), <- app_assoc; f_equal; apply IH1|].
        assert (E3 : is_space c = false) by (unfold is_sep in E2; now destruct (is_space c)). rewrite E3. apply IH1.
    + cbn [wc]. destruct (eqb_spec c newline); [contradiction|]. apply IH2.
Qed.
Theorem comments_exact s : splitwords s true = flat_map (fun line => splitwords (before_comment true line) false) (split nl s).
Proof.
  assert (A : splitwords s true = wc [] (Fresh true) s).
  { destruct s as [|c s]; [reflexivity|]. unfold splitwords. rewrite re_split_ws by (try constructor; lia). apply rc_wc; [lia|reflexivity]. }
  rewrite A. pose proof (lines_wc s) as L. change newline with nl in L. destruct (split nl s) as [|f rest] eqn:Es; [now apply split_nonempty in Es|].
  destruct L as [L _]. rewrite <- L. cbn [flat_map]. rewrite splitwords_ws. f_equal. unfold rest_words. apply flat_map_ext. intros x. now rewrite splitwords_ws.
Qed.
