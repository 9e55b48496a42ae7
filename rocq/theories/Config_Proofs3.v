(** Lemmas about the values: the last word wins. *)
From Coq Require Import Lia Arith.
From Verif Require Import Base Text Config_Model Config_Spec Config_Proofs.

Definition or_else {A} (x y : option A) : option A := match x with Some _ => x | None => y end.
Lemma last_of_app {A} (a b : list A) : last_of (a ++ b) = or_else (last_of b) (last_of a).
Proof. unfold last_of. rewrite rev_app_distr. destruct (rev b); reflexivity. Qed.
Lemma last_of_cons {A} (x : A) l : last_of (x :: l) = or_else (last_of l) (Some x).
Proof. apply (last_of_app [x] l). Qed.
Lemma or_else_assoc {A} (x y z : option A) : or_else (or_else x y) z = or_else x (or_else y z).
Proof. now destruct x. Qed.
Lemma or_else_none {A} (x : option A) : or_else x None = x.
Proof. now destruct x. Qed.

Definition told (k : text) (s : dict text text) : list text := map snd (filter (fun kv => eqb (fst kv) k) s).
Lemma dget_update (k : text) : forall (s d : dict text text), dget k (update d s) = or_else (last_of (told k s)) (dget k d).
Proof.
  unfold update. induction s as [|[k' v] s IH]; intros d; cbn [fold_left fst snd]; [reflexivity|]. rewrite IH, dget_dset. unfold told. cbn [filter fst].
  destruct (eqb k' k) eqn:E.
  - apply eqb_true in E as ->. rewrite eqb_refl. cbn [map snd]. rewrite last_of_cons, or_else_assoc. reflexivity.
  - replace (eqb k k') with false; [reflexivity|]. symmetry. destruct (eqb k k') eqn:Q; auto. apply eqb_true in Q as ->. now rewrite eqb_refl in E.
Qed.
Lemma told_in k s : told k s <> [] <-> In k (dkeys s).
Proof.
  unfold told, dkeys. induction s as [|[k' v] s IH]; cbn [filter map fst]; [cbn; tauto|]. destruct (eqb k' k) eqn:E.
  - apply eqb_true in E as ->. split; [now left|discriminate].
  - rewrite IH. split; [now right|]. intros [->|H]; auto. now rewrite eqb_refl in E.
Qed.
Lemma told_wf (k : text) s : dwf s -> told k s = match dget k s with Some v => [v] | None => [] end.
Proof.
  unfold dwf, dkeys, told. induction s as [|[k' v] s IH]; cbn [map fst filter dget]; auto. intros ND. inversion ND; subst.
  destruct (eqb_spec k k') as [<-|N].
  - rewrite eqb_refl. cbn [map snd]. f_equal. destruct (map snd (filter (fun kv => eqb (fst kv) k) s)) eqn:E; auto. exfalso. apply H1.
    apply told_in. unfold told. rewrite E. discriminate.
  - replace (eqb k' k) with false; [now apply IH|]. symmetry. destruct (eqb k' k) eqn:Q; auto. apply eqb_true in Q. congruence.
Qed.

(** One section *)
Definition val (alls : dict text (dict text text)) (s o : text) : option text := match dget s alls with Some d => dget o d | None => None end.
(** what merge_one takes the section for *)
Definition normal (ns : text * dict text text) : text * dict text text :=
  match conditional (fst ns) with
  | Some (n, cond) => (n, map (fun kv => (fst kv ++ cond, snd kv)) (ddel (tx "__name__") (snd ns)))
  | None => ns
  end.
Lemma merge_one_normal alls ns : merge_one alls ns =
  match dget (fst (normal ns)) alls with
  | Some s2 => dset (fst (normal ns)) (update s2 (snd (normal ns)))
      (merge_section alls (known (fst (normal ns))) (filter (fun kv => dmem (fst kv) (snd (normal ns))) s2))
  | None => dset (fst (normal ns)) (snd (normal ns)) alls
  end.
Proof.
  unfold merge_one, normal. destruct (conditional (fst ns)) as [[n cond]|]; [reflexivity|]. now destruct ns.
Qed.
Lemma filter_all {A} (p : A -> bool) l : (forall x, In x l -> p x = true) -> filter p l = l.
Proof. induction l as [|x l IH]; cbn; auto. intros H. rewrite (H x) by now left. f_equal. apply IH. intros y Hy. apply H. now right. Qed.
Lemma ddel_filter {V} (k : text) (d : dict text V) : dwf d -> ddel k d = filter (fun kv => negb (eqb (fst kv) k)) d.
Proof.
  unfold dwf, dkeys. induction d as [|[k' v] d IH]; cbn [map fst ddel filter]; auto. intros ND. inversion ND; subst.
  destruct (eqb_spec k k') as [<-|N].
  - rewrite eqb_refl. cbn [negb]. clear IH. symmetry. apply filter_all. intros [x y] Hx. cbn [fst]. apply negb_true_iff.
    destruct (eqb x k) eqn:Q; auto. apply eqb_true in Q as ->. exfalso. apply H1. now apply (in_map fst) in Hx.
  - replace (eqb k' k) with false; [cbn [negb]; now rewrite IH|]. symmetry. destruct (eqb k' k) eqn:Q; auto. apply eqb_true in Q. congruence.
Qed.
Lemma said_app s o a b : said s o (a ++ b) = said s o a ++ said s o b.
Proof. unfold said. now rewrite filter_app, map_app. Qed.
Lemma eqb_pair (a b c d : text) : eqb (a, b) (c, d) = eqb a c && eqb b d.
Proof.
  apply Bool.eq_iff_eq_true. rewrite andb_true_iff, !eqb_eq. split; [intros [= -> ->]; auto|intros [-> ->]; auto].
Qed.
Lemma said_section s o ns : dwf (snd ns) -> said s o (says_section ns) = if eqb (fst (normal ns)) s then told o (snd (normal ns)) else [].
Proof.
  intros W. unfold says_section, normal.
  assert (G : forall n (h : text -> text) (l : dict text text), said s o (map (fun kv => (n, h (fst kv), snd kv)) l) =
    if eqb n s then told o (map (fun kv => (h (fst kv), snd kv)) l) else []).
  { intros n h l. unfold said, told. induction l as [|[k v] l IH]; cbn [map filter fst snd]; [now destruct (eqb n s)|]. rewrite eqb_pair.
    destruct (eqb n s) eqn:E; cbn [andb].
    - destruct (eqb (h k) o); cbn [map snd]; now rewrite IH.
    - exact IH. }
  destruct (conditional (fst ns)) as [[n cond]|]; cbn [fst snd].
  - rewrite <- ddel_filter by auto. apply (G n (fun k => k ++ cond)).
  - rewrite (G (fst ns) (fun k => k)). destruct (eqb (fst ns) s); auto. f_equal. induction (snd ns) as [|[k v] l IH]; cbn; auto. f_equal. apply IH.
    unfold dwf in W. cbn in W. now inversion W.
Qed.
Lemma normal_wf ns : dwf (snd ns) -> dwf (snd (normal ns)).
Proof.
  intros W. unfold normal. destruct (conditional (fst ns)) as [[n cond]|]; auto. cbn [snd]. pose proof (dwf_ddel (tx "__name__") (snd ns) W) as W2.
  unfold dwf, dkeys in *. rewrite map_map. cbn [fst]. induction (ddel (tx "__name__") (snd ns)) as [|[k v] d IH]; cbn in *; constructor.
  - inversion W2; subst. intros H. apply in_map_iff in H as ([k' v'] & E & H). cbn in E. apply app_inv_tail in E as ->. apply H1. now apply (in_map fst) in H.
  - apply IH. now inversion W2.
Qed.

Lemma known_ne n : known n <> n.
Proof. intros H. unfold known in H. apply (f_equal (@length ascii)) in H. rewrite app_length in H. cbn in H. lia. Qed.
Lemma val_dset alls n d s o : val (dset n d alls) s o = if eqb s n then dget o d else val alls s o.
Proof. unfold val. rewrite dget_dset. now destruct (eqb s n). Qed.
Lemma eqb_sym_text (a b : text) : eqb a b = eqb b a.
Proof. apply Bool.eq_iff_eq_true. rewrite !eqb_eq. split; auto. Qed.

Lemma val_merge_one alls ns s o : dwf (snd ns) -> ~ known_name s ->
  val (merge_one alls ns) s o = or_else (last_of (said s o (says_section ns))) (val alls s o).
Proof.
  intros W K. rewrite merge_one_normal, said_section by auto. pose proof (normal_wf ns W) as Wn. destruct (normal ns) as [n d]. cbn [fst snd] in *.
  destruct (dget n alls) as [s2|] eqn:E.
  - rewrite val_dset. unfold merge_section. rewrite val_dset, (eqb_sym_text n s). destruct (eqb s n) eqn:Q.
    + apply eqb_true in Q as ->. rewrite dget_update. unfold val. now rewrite E.
    + destruct (eqb s (known n)) eqn:Q2; [|reflexivity]. apply eqb_true in Q2. exfalso. apply K. eexists. exact Q2.
  - rewrite val_dset, (eqb_sym_text n s). destruct (eqb s n) eqn:Q; [|reflexivity]. apply eqb_true in Q as ->. rewrite told_wf by auto. unfold val. rewrite E.
    unfold last_of. destruct (dget o d); reflexivity.
Qed.
Lemma val_merge_sections s o : ~ known_name s -> forall l alls, Forall (fun ns => dwf (snd ns)) l ->
  val (fold_left merge_one l alls) s o = or_else (last_of (said s o (flat_map says_section l))) (val alls s o).
Proof.
  intros K. induction l as [|ns l IH]; intros alls F; cbn [fold_left flat_map]; [reflexivity|]. inversion F; subst.
  rewrite IH, val_merge_one by auto. now rewrite said_app, last_of_app, or_else_assoc.
Qed.

(** The value before the last one *)
Lemma before_last_snoc {A} (l : list A) x : before_last_of (l ++ [x]) = last_of l.
Proof. unfold before_last_of, last_of. rewrite rev_app_distr. cbn. destruct (rev l); reflexivity. Qed.
Definition kinv (alls : dict text (dict text text)) (l : list (text * text * text)) : Prop :=
  forall s o, ~ known_name s -> val alls s o = last_of (said s o l) /\ val alls (known s) o = before_last_of (said s o l).
Lemma update_filter_keys (s2 d : dict text text) (k : text) : dwf s2 ->
  told k (filter (fun kv => dmem (fst kv) d) s2) = if dmem k d then match dget k s2 with Some v => [v] | None => [] end else [].
Proof.
  intros W. rewrite <- told_wf by auto. unfold told. clear W. induction s2 as [|[k' v] s2 IH]; cbn [filter fst]; [now destruct (dmem k d)|].
  destruct (eqb k' k) eqn:E.
  - apply eqb_true in E as ->. destruct (dmem k d) eqn:M; cbn [filter fst map snd].
    + rewrite eqb_refl. cbn [map snd]. now rewrite IH.
    + exact IH.
  - destruct (dmem k' d); cbn [filter fst]; rewrite ?E; exact IH.
Qed.
Definition wf_alls (alls : dict text (dict text text)) : Prop := forall n d, dget n alls = Some d -> dwf d.
Lemma update_wf (s d : dict text text) : dwf d -> dwf (update d s).
Proof. unfold update. revert d. induction s as [|[k v] s IH]; intros d W; cbn; auto. apply IH. now apply dwf_dset. Qed.
Lemma merge_one_wf alls ns : wf_alls alls -> dwf (snd ns) -> wf_alls (merge_one alls ns).
Proof.
  intros A W. rewrite merge_one_normal. pose proof (normal_wf ns W). destruct (normal ns) as [n d]. cbn [fst snd] in *.
  destruct (dget n alls) as [s2|] eqn:E; intros m e.
  - unfold merge_section. rewrite !dget_dset. destruct (eqb m n); [intros [= <-]; apply update_wf; eauto|].
    destruct (eqb m _); [intros [= <-]|apply A]. apply update_wf. match goal with |- dwf (match ?x with _ => _ end) => destruct x eqn:Q end; [eapply A, Q|constructor].
  - rewrite dget_dset. destruct (eqb m n); [intros [= <-]; auto|apply A].
Qed.
Lemma known_prefix_not s : ~ known_name s -> forall r, s <> tx "KNOWN/" ++ r.
Proof. intros K r ->. apply K. now exists r. Qed.
Lemma kinv_merge_one alls ns l : wf_alls alls -> dwf (snd ns) -> ~ known_name (fst (normal ns)) -> kinv alls l -> kinv (merge_one alls ns) (l ++ says_section ns).
Proof.
  intros A W Kn Iv s o K. split.
  - rewrite val_merge_one by auto. rewrite (proj1 (Iv s o K)), said_app, last_of_app. reflexivity.
  - rewrite said_app, said_section by auto. rewrite merge_one_normal. pose proof (normal_wf ns W) as Wn. destruct (normal ns) as [n d]. cbn [fst snd] in *.
    destruct (Iv s o K) as [I1 I2].
    assert (Ne : eqb (known s) n = false). { destruct (eqb (known s) n) eqn:Q; auto. apply eqb_true in Q. exfalso. apply Kn. now exists s. }
    rewrite (eqb_sym_text n s). destruct (dget n alls) as [s2|] eqn:E.
    + rewrite val_dset, Ne. unfold merge_section. rewrite val_dset.
      destruct (eqb s n) eqn:Q.
      * apply eqb_true in Q as ->. rewrite eqb_refl, dget_update, update_filter_keys by (eapply A; eauto). rewrite told_wf by auto. unfold dmem.
        assert (Vk : match dget (known n) alls with Some s => s | None => [] end = match dget (known n) alls with Some s => s | None => [] end) by reflexivity.
        assert (Vo : dget o match dget (known n) alls with Some s => s | None => [] end = val alls (known n) o)
          by (unfold val; destruct (dget (known n) alls); reflexivity).
        rewrite Vo, I2. assert (V2 : dget o s2 = last_of (said n o l)) by (rewrite <- I1; unfold val; now rewrite E).
        destruct (dget o d) as [v|].
        -- rewrite before_last_snoc, V2. destruct (last_of (said n o l)) eqn:Q; [reflexivity|]. cbn [last_of rev or_else]. cbn.
           unfold last_of in Q. unfold before_last_of. destruct (rev (said n o l)); [reflexivity|discriminate].
        -- rewrite app_nil_r. reflexivity.
      * rewrite app_nil_r. replace (eqb (known s) (known n)) with false by (symmetry; exact Q). exact I2.
    + rewrite val_dset, Ne. destruct (eqb s n) eqn:Q; [|now rewrite app_nil_r].
      apply eqb_true in Q as ->. rewrite I2. assert (V2 : last_of (said n o l) = None) by (rewrite <- I1; unfold val; now rewrite E).
      assert (Em : said n o l = []). { unfold last_of in V2. destruct (rev (said n o l)) eqn:R; [|discriminate]. apply (f_equal (@rev _)) in R. now rewrite rev_involutive in R. }
      rewrite Em. cbn [app]. rewrite told_wf by auto. destruct (dget o d); reflexivity.
Qed.
Lemma kinv_merge_sections l : forall alls sp, wf_alls alls -> Forall (fun ns => dwf (snd ns)) l -> Forall (fun ns => ~ known_name (fst (normal ns))) l -> kinv alls sp ->
  kinv (fold_left merge_one l alls) (sp ++ flat_map says_section l) /\ wf_alls (fold_left merge_one l alls).
Proof.
  induction l as [|ns l IH]; intros alls sp A F G Iv; cbn [fold_left flat_map].
  - rewrite app_nil_r. auto.
  - inversion F; inversion G; subst. rewrite app_assoc. apply IH; auto using merge_one_wf, kinv_merge_one.
Qed.

(** Whole files *)
Lemma merge_all_files w c l : merge_all w c l = (fold_left merge_file (contents w l) c, filter (fun f => match w_content w f with Some _ => true | None => false end) l).
Proof.
  revert c. induction l as [|f l IH]; intros c; cbn [merge_all contents flat_map filter]; [reflexivity|]. destruct (w_content w f) as [p|]; [|apply IH].
  rewrite IH. reflexivity.
Qed.
Lemma value_merge_files s o : ~ known_name s -> forall l c, Forall proper l ->
  value_of (fold_left merge_file l c) s o = or_else (last_of (said s o (flat_map says l))) (value_of c s o).
Proof.
  intros K. induction l as [|p l IH]; intros c F; cbn [fold_left flat_map]; [reflexivity|]. inversion F; subst. rewrite IH by auto.
  rewrite said_app, last_of_app, or_else_assoc. f_equal. now apply val_merge_sections.
Qed.
Lemma default_merge_files (o : text) : forall l c, dget o (defaults (fold_left merge_file l c)) = or_else (last_of (said_default o l)) (dget o (defaults c)).
Proof.
  induction l as [|p l IH]; intros c; cbn [fold_left]; [reflexivity|]. rewrite IH. unfold said_default. cbn [flat_map merge_file defaults].
  rewrite filter_app, map_app, last_of_app, or_else_assoc. f_equal. apply dget_update.
Qed.
Lemma known_merge_files : forall l alls d sp, wf_alls alls -> Forall proper l ->
  Forall (fun p => Forall (fun ns => ~ known_name (fst (normal ns))) (f_sections p)) l -> kinv alls sp ->
  kinv (sections (fold_left merge_file l (mkC d alls))) (sp ++ flat_map says l).
Proof.
  induction l as [|p l IH]; intros alls d sp A F G Iv; cbn [fold_left flat_map]; [now rewrite app_nil_r|]. inversion F; inversion G; subst. rewrite app_assoc.
  destruct (kinv_merge_sections (f_sections p) alls sp) as [K W]; auto. apply IH; auto.
Qed.

(** Conditional names *)
Lemma conditional_some n a b : conditional n = Some (a, b) <->
  n = a ++ b /\ a <> [] /\ Forall (fun c => is_word c = true) a /\ exists x r, b = "?"%char :: x :: r.
Proof.
  unfold conditional. destruct (span_spec is_word n) as (x & y & E & -> & F & H). rewrite E. split.
  - destruct x as [|c x]; [discriminate|]. destruct y as [|q [|z y]]; try discriminate. destruct (Ascii.eqb q "?") eqn:Q; [|discriminate].
    apply Ascii.eqb_eq in Q as ->. intros [= <- <-]. split; auto. split; [discriminate|]. split; auto. eauto.
  - intros (E2 & N & F2 & z & r & ->). rewrite E2, span_unique in E; auto. injection E as <- <-.
    destruct a as [|c a]; [congruence|]. reflexivity.
Qed.
