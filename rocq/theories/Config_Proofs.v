(** Lemmas about names of configuration files. *)
From Coq Require Import Relations.
From Verif Require Import Base Text Config_Model Config_Spec.

Lemma span_spec p s : exists a b, span p s = (a, b) /\ s = a ++ b /\ Forall (fun c => p c = true) a /\ match b with [] => True | c :: _ => p c = false end.
Proof.
  induction s as [|c s IH]; cbn [span].
  - exists [], []. auto.
  - destruct (p c) eqn:E.
    + destruct IH as (a & b & -> & -> & F & H). exists (c :: a), b. auto.
    + exists [], (c :: s). auto.
Qed.
Lemma span_unique p a b : Forall (fun c => p c = true) a -> match b with [] => True | c :: _ => p c = false end -> span p (a ++ b) = (a, b).
Proof.
  intros F H. induction F as [|c a Hc F IH]; cbn [app span].
  - destruct b as [|c b]; cbn [span]; auto. now rewrite H.
  - now rewrite Hc, IH.
Qed.
Lemma aeqb_refl c : Ascii.eqb c c = true.
Proof. apply Ascii.eqb_refl. Qed.
Lemma aeqb_neq c d : c <> d -> Ascii.eqb c d = false.
Proof. apply Ascii.eqb_neq. Qed.

(** dirname *)
Lemma slash_free s : no_slash s <-> Forall (fun c => negb (Ascii.eqb c slash) = true) s.
Proof.
  unfold no_slash. rewrite Forall_forall. split.
  - intros H c Hc. rewrite negb_true_iff. apply aeqb_neq. intros ->. auto.
  - intros H Hs. apply H in Hs. now rewrite aeqb_refl in Hs.
Qed.
Lemma no_slash_rev s : no_slash (rev s) <-> no_slash s.
Proof. unfold no_slash. now rewrite <- in_rev. Qed.
Lemma slashes_rev s : Forall (eq slash) s -> rev s = s.
Proof.
  intros F. induction F as [|c s <- F IH]; auto. cbn. rewrite IH. clear IH. induction F as [|c s <- F IH]; auto. cbn. now rewrite IH.
Qed.
Lemma slashes_span s : Forall (eq slash) s -> Forall (fun c => Ascii.eqb c slash = true) s.
Proof. intros F. eapply Forall_impl; [|exact F]. cbn. intros c <-. apply aeqb_refl. Qed.

Lemma dirname_none a : no_slash a -> dirname a = [].
Proof.
  intros H. unfold dirname. rewrite <- (app_nil_r (rev a)), span_unique; auto. now apply slash_free, no_slash_rev.
Qed.
Lemma dirname_gen d s b : Forall (eq slash) s -> s <> [] -> no_slash b -> ~ ends_in_slash d ->
  dirname (d ++ s ++ b) = match d with [] => s | _ => d end.
Proof.
  intros F N B D. unfold dirname. rewrite !rev_app_distr, <- app_assoc. rewrite span_unique.
  2: now apply slash_free, no_slash_rev.
  2: { rewrite (slashes_rev s F). destruct s as [|c s]; [congruence|]. cbn. inversion F; subst. now rewrite aeqb_refl. }
  cbn [snd]. rewrite (slashes_rev s F), span_unique.
  - cbn [snd]. destruct d as [|c d].
    + cbn. rewrite app_nil_r. now apply slashes_rev.
    + destruct (rev (c :: d)) as [|x y] eqn:E; [apply (f_equal (@rev ascii)) in E; rewrite rev_involutive in E; discriminate|].
      rewrite <- E. apply rev_involutive.
  - now apply slashes_span.
  - destruct (rev d) as [|x y] eqn:E; auto. apply aeqb_neq. intros ->. apply D. exists (rev y).
    apply (f_equal (@rev ascii)) in E. now rewrite rev_involutive in E.
Qed.
Lemma isabs_true s : isabs s = true <-> exists r, s = slash :: r.
Proof.
  destruct s as [|c s]; cbn.
  - split; [discriminate|]. intros [r H]. discriminate.
  - rewrite Ascii.eqb_eq. split; [intros ->; eauto|]. intros [r [= -> ->]]. auto.
Qed.
Lemma isabs_false s : isabs s = false <-> relative s.
Proof.
  rewrite <- not_true_iff_false, isabs_true. unfold relative. split.
  - intros H r ->. apply H. eauto.
  - intros H [r ->]. now apply (H r).
Qed.
(** Every name is one of these *)
Lemma name_cases a : no_slash a \/ exists d s b, a = d ++ s ++ b /\ Forall (eq slash) s /\ s <> [] /\ no_slash b /\ ~ ends_in_slash d.
Proof.
  destruct (span_spec (fun c => negb (Ascii.eqb c slash)) (rev a)) as (x & y & _ & E & F & H). apply slash_free in F.
  destruct y as [|c y].
  - left. rewrite app_nil_r in E. apply no_slash_rev. now rewrite E.
  - right. destruct (span_spec (fun c => Ascii.eqb c slash) (c :: y)) as (s & d & _ & E2 & F2 & H2).
    assert (Fs : Forall (eq slash) s). { eapply Forall_impl; [|exact F2]. cbn. intros z Hz. apply Ascii.eqb_eq in Hz. auto. }
    exists (rev d), s, (rev x). split; [|split; [exact Fs|split; [|split]]].
    + rewrite <- (rev_involutive a), E, E2. rewrite !rev_app_distr, <- app_assoc. now rewrite (slashes_rev s).
    + intros ->. cbn [app] in E2. subst d. apply negb_false_iff in H. congruence.
    + now apply no_slash_rev.
    + intros [z Hz]. apply (f_equal (@rev ascii)) in Hz. rewrite rev_involutive, rev_app_distr in Hz. cbn in Hz. subst d. cbn in H2. discriminate.
Qed.
Lemma resolve_beside a line : beside a line (resolve a line).
Proof.
  unfold resolve. destruct (isabs line) eqn:E.
  - apply isabs_true in E as [r ->]. econstructor. reflexivity.
  - apply isabs_false in E. destruct (name_cases a) as [H|(d & s & b & -> & F & N & B & D)].
    + rewrite dirname_none by auto. unfold path_join. rewrite (proj2 (isabs_false _)) by auto. cbn. now apply b_here.
    + rewrite dirname_gen by auto. unfold path_join. rewrite (proj2 (isabs_false _)) by auto. destruct d as [|c d].
      * rewrite slashes_rev by auto. destruct s as [|x s]; [congruence|]. inversion F; subst x. rewrite aeqb_refl.
        exact (b_root ([] ++ (slash :: s) ++ b) line (slash :: s) b E eq_refl F N B).
      * destruct (rev (c :: d)) as [|x y] eqn:R; [apply (f_equal (@rev ascii)) in R; rewrite rev_involutive in R; discriminate|].
        assert (x <> slash). { intros ->. apply D. exists (rev y). apply (f_equal (@rev ascii)) in R. now rewrite rev_involutive in R. }
        rewrite aeqb_neq by auto. apply (b_dir _ _ (c :: d) s b); auto. discriminate.
Qed.
Lemma beside_resolve a line r : beside a line r -> r = resolve a line.
Proof.
  intros H. unfold resolve. destruct H.
  - subst line. reflexivity.
  - rewrite (proj2 (isabs_false _)) by auto. rewrite dirname_none by auto. unfold path_join. now rewrite (proj2 (isabs_false _)) by auto.
  - rewrite (proj2 (isabs_false _)) by auto. subst a. pose proof (dirname_gen [] s b) as G. cbn [app] in G. rewrite G; auto.
    + unfold path_join. rewrite (proj2 (isabs_false _)) by auto. rewrite slashes_rev by auto. destruct s as [|x s]; [congruence|].
      match goal with F : Forall (eq slash) (x :: s) |- _ => inversion F; subst x end. now rewrite aeqb_refl.
    + intros [d E]. destruct d; discriminate.
  - rewrite (proj2 (isabs_false _)) by auto. subst a. rewrite dirname_gen by auto. unfold path_join. rewrite (proj2 (isabs_false _)) by auto.
    destruct d as [|c d]; [congruence|].
    destruct (rev (c :: d)) as [|x y] eqn:R; [apply (f_equal (@rev ascii)) in R; rewrite rev_involutive in R; discriminate|].
    rewrite aeqb_neq; auto. intros ->. match goal with D : ~ ends_in_slash _ |- _ => apply D end. exists (rev y). apply (f_equal (@rev ascii)) in R. now rewrite rev_involutive in R.
Qed.

(** The local version *)
Lemma named_spec r : named r = true <-> exists a c b, r = a ++ c :: b /\ ~ In slash a /\ c <> slash /\ c <> dot.
Proof.
  induction r as [|x r IH]; cbn [named].
  - split; [discriminate|]. intros (a & c & b & H & _). destruct a; discriminate.
  - destruct (Ascii.eqb x slash) eqn:E.
    + apply Ascii.eqb_eq in E as ->. split; [discriminate|]. intros (a & c & b & H & H1 & H2 & _). destruct a as [|y a]; injection H as <- H; [congruence|].
      exfalso. apply H1. now left.
    + apply Ascii.eqb_neq in E. destruct (Ascii.eqb x dot) eqn:E2.
      * apply Ascii.eqb_eq in E2 as ->. rewrite IH. split.
        -- intros (a & c & b & -> & H1 & H2). exists (dot :: a), c, b. split; auto. split; auto. intros [H|H]; [discriminate|auto].
        -- intros (a & c & b & H & H1 & H2 & H3). destruct a as [|y a]; injection H as <- H; [congruence|]. exists a, c, b. split; auto. split; auto.
           intros Hs. apply H1. now right.
      * apply Ascii.eqb_neq in E2. split; auto. intros _. exists [], x, r. split; auto.
Qed.
Lemma ext_chars s : Forall (fun c => negb (Ascii.eqb c dot) && negb (Ascii.eqb c slash) = true) s <-> no_slash s /\ ~ In dot s.
Proof.
  unfold no_slash. rewrite Forall_forall. split.
  - intros H. split; intros Hs; apply H in Hs; discriminate.
  - intros [H1 H2] c Hc. rewrite !aeqb_neq; auto; intros ->; auto.
Qed.
Lemma splitext_ext f root ext : extension f root ext -> splitext_root f = root.
Proof.
  intros (-> & S1 & D1 & d & c & r & -> & S2 & C). unfold splitext_root. rewrite rev_app_distr. cbn [rev]. rewrite <- app_assoc. cbn [app].
  rewrite span_unique.
  - cbn [snd]. rewrite aeqb_refl. replace (named (rev (d ++ c :: r))) with true; [cbn [andb]; now rewrite rev_involutive|].
    symmetry. apply named_spec. exists (rev r), c, (rev d). rewrite rev_app_distr. cbn. rewrite <- app_assoc. split; auto. split.
    + rewrite <- in_rev. intros H. apply S2. now right.
    + split; auto. intros ->. apply S2. now left.
  - apply ext_chars. split; [now apply no_slash_rev|now rewrite <- in_rev].
  - reflexivity.
Qed.
Lemma splitext_cases f : (exists ext, extension f (splitext_root f) ext) \/ (splitext_root f = f /\ forall root ext, ~ extension f root ext).
Proof.
  assert (D : (exists root ext, extension f root ext) \/ (splitext_root f = f /\ forall root ext, ~ extension f root ext)).
  { unfold splitext_root. destruct (span_spec (fun c => negb (Ascii.eqb c dot) && negb (Ascii.eqb c slash)) (rev f)) as (x & y & -> & E & F & H).
    apply ext_chars in F. cbn [snd].
    assert (No : forall root ext, extension f root ext -> exists z, y = dot :: z /\ named z = true).
    { intros root ext (-> & S1 & D1 & d & c & r & -> & S2 & C). rewrite rev_app_distr in E. cbn [rev] in E. rewrite <- app_assoc in E. cbn [app] in E.
      pose proof (span_unique (fun c => negb (Ascii.eqb c dot) && negb (Ascii.eqb c slash)) x y (proj2 (ext_chars x) F) H) as U1.
      rewrite <- E, span_unique in U1; [|apply ext_chars; split; [now apply no_slash_rev|now rewrite <- in_rev]|reflexivity].
      injection U1 as _ <-. eexists. split; [reflexivity|]. apply named_spec. exists (rev r), c, (rev d). rewrite rev_app_distr. cbn. rewrite <- app_assoc.
      split; auto. split; [rewrite <- in_rev; intros Hs; apply S2; now right|]. split; auto. intros ->. apply S2. now left. }
    destruct y as [|c z].
    - right. split; auto. intros root ext X. destruct (No _ _ X) as (z & Hz & _). discriminate.
    - destruct (Ascii.eqb c dot && named z) eqn:Q.
      + left. apply andb_true_iff in Q as [Q1 Q2]. apply Ascii.eqb_eq in Q1 as ->. exists (rev z), (rev x).
        apply named_spec in Q2 as (a & c & b & -> & H1 & H2 & H3). split; [|split; [|split]].
        * rewrite <- (rev_involutive f), E, rev_app_distr. cbn [rev]. rewrite <- app_assoc. reflexivity.
        * now apply no_slash_rev.
        * rewrite <- in_rev. tauto.
        * exists (rev b), c, (rev a). rewrite rev_app_distr. cbn. rewrite <- app_assoc. split; auto. split; auto. intros [Hs|Hs]; [congruence|]. apply in_rev in Hs. auto.
      + right. split; auto. intros root ext X. destruct (No _ _ X) as (z' & [= -> ->] & Hz). rewrite aeqb_refl, Hz in Q. discriminate. }
  destruct D as [(root & ext & X)|D]; auto. left. exists ext. now rewrite (splitext_ext _ _ _ X).
Qed.
Lemma local_name_of f : local_of f (local_name f).
Proof. unfold local_name. destruct (splitext_cases f) as [[ext X]|[E X]]; [eapply l_ext; eauto|]. rewrite E. now apply l_no. Qed.
Lemma local_of_name f g : local_of f g -> g = local_name f.
Proof.
  intros H. unfold local_name. destruct H as [root ext X|X].
  - now rewrite (splitext_ext _ _ _ X).
  - destruct (splitext_cases f) as [[ext Y]|[E _]]; [now apply X in Y|now rewrite E].
Qed.

(** The lines of an include *)
Lemma listed_lines p o : listed p o (include_lines p o).
Proof.
  unfold listed, include_lines. destruct (dget (tx "INCLUDES") (f_sections p)) as [s|]; auto.
  assert (L : forall v, split "010"%char v <> [] /\ v = join ["010"%char] (split "010"%char v) /\ Forall (fun l => ~ In "010"%char l) (split "010"%char v)).
  { intros v. split; [apply split_nonempty|]. split; [symmetry; apply join_split|apply split_tokens_free]. }
  destruct (dget o s); auto. destruct (dget o (f_defaults p)); auto.
Qed.
Lemma lines_listed p o l : listed p o l -> l = include_lines p o.
Proof.
  unfold listed, include_lines. destruct (dget (tx "INCLUDES") (f_sections p)) as [s|]; auto.
  assert (L : forall v, l <> [] /\ v = join ["010"%char] l /\ Forall (fun l => ~ In "010"%char l) l -> l = split "010"%char v).
  { intros v (H1 & -> & H2). symmetry. now apply split_join. }
  destruct (dget o s); auto. destruct (dget o (f_defaults p)); auto.
Qed.
Lemma expand_one w r : expand w [r] = r :: (if negb (eqb (local_name r) r) && w_isfile w (local_name r) then [local_name r] else []).
Proof. unfold expand. cbn [flat_map]. rewrite app_nil_r. unfold inb. cbn [existsb]. now rewrite orb_false_r. Qed.
Lemma with_local_expand w r : with_local w r (expand w [r]).
Proof. exists (local_name r). split; [apply local_name_of|]. rewrite expand_one. now destruct (negb _ && _). Qed.
Lemma expand_with_local w r l : with_local w r l -> l = expand w [r].
Proof. intros (g & G & ->). apply local_of_name in G as ->. rewrite expand_one. now destruct (negb _ && _). Qed.
Lemma asked_expand w names : asked w names (expand w names).
Proof.
  exists (map (fun f => f :: (if negb (inb (local_name f) names) && w_isfile w (local_name f) then [local_name f] else [])) names).
  split; [unfold expand; apply flat_map_concat_map|].
  assert (G : forall l, Forall2 (fun f x => exists g, local_of f g /\ x = if negb (inb g names) && w_isfile w g then [f; g] else [f]) l
    (map (fun f => f :: (if negb (inb (local_name f) names) && w_isfile w (local_name f) then [local_name f] else [])) l)); [|apply G].
  induction l as [|f l IH]; cbn [map]; constructor; auto.
  exists (local_name f). split; [apply local_name_of|]. now destruct (negb _ && _).
Qed.
Lemma included_lines w a r : included w a r <-> exists p line, w_content w a = Some p /\
  (In line (include_lines p (tx "before")) \/ In line (include_lines p (tx "after"))) /\ r = resolve a line.
Proof.
  split.
  - intros (p & o & lines & line & H1 & H2 & H3 & H4 & H5). apply lines_listed in H3 as ->. apply beside_resolve in H5 as ->. exists p, line.
    split; auto. split; auto. destruct H2 as [-> | ->]; auto.
  - intros (p & line & H1 & H2 & ->). destruct H2 as [H2|H2]; [exists p, (tx "before"), (include_lines p (tx "before")), line|exists p, (tx "after"), (include_lines p (tx "after")), line];
      (split; [exact H1|]); (split; [auto|]); (split; [apply listed_lines|]); (split; [exact H2|apply resolve_beside]).
Qed.
