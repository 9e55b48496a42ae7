(** Proofs about tags: dynamic tags, quoting. *)
From Verif Require Import Base Text Tags_Model Tags_Spec.
From Coq Require Import ZifyBool ZifyNat.

(** ** scanning *)
Lemma span_app p s a b : span p s = (a, b) -> s = a ++ b /\ Forall (fun c => p c = true) a /\ match b with [] => True | c :: _ => p c = false end.
Proof.
  revert a b; induction s as [|c r IH]; intros a b H; cbn [span] in H.
  - injection H as <- <-. auto.
  - destruct (p c) eqn:E.
    + destruct (span p r) as [a' b'] eqn:E2. injection H as <- <-.
      destruct (IH _ _ eq_refl) as (-> & F & G). repeat split; auto.
    + injection H as <- <-. repeat split; auto.
Qed.
Lemma span_run p a b : Forall (fun c => p c = true) a -> match b with [] => True | c :: _ => p c = false end -> span p (a ++ b) = (a, b).
Proof.
  induction 1 as [|c a Hc Ha IH]; intros Hb; cbn.
  - destruct b as [|c b]; [reflexivity|]. cbn. now rewrite Hb.
  - rewrite Hc, IH; auto.
Qed.
Lemma name_at_spec p s n r : p gt = false ->
  name_at p s = Some (n, r) <-> s = n ++ gt :: r /\ n <> [] /\ Forall (fun c => p c = true) n.
Proof.
  intros Hp. unfold name_at. split.
  - destruct (span p s) as [a b] eqn:E. apply span_app in E. destruct E as (-> & F & G).
    destruct a as [|c a]; [discriminate|]. destruct b as [|x b]; [discriminate|].
    destruct (eqb_spec x ">"%char) as [->|]; [|discriminate]. intros [= <- <-]. repeat split; auto. discriminate.
  - intros (-> & Hn & F). rewrite (span_run p n (gt :: r)); auto.
    destruct n; [congruence|]. rewrite eqb_refl. reflexivity.
Qed.

Lemma tag_chars n : Forall (fun c => tag_char c = true) n <-> ~ In sp n /\ ~ In lt n /\ ~ In gt n.
Proof.
  rewrite Forall_forall. unfold tag_char. split.
  - intros H. repeat split; intros I; specialize (H _ I); cbv in H; discriminate.
  - intros (A & B & C) c Hc.
    destruct (eqb_spec c " "%char) as [->|]; [now destruct A|].
    destruct (eqb_spec c "<"%char) as [->|]; [now destruct B|].
    destruct (eqb_spec c ">"%char) as [->|]; [now destruct C|]. reflexivity.
Qed.
Lemma tag_at_spec s n r : tag_at s = Some (n, r) <-> tag_name n /\ s = [lt] ++ n ++ gt :: r.
Proof.
  unfold tag_name, tag_at. destruct s as [|c s].
  - split; [discriminate|]. intros (_ & H). discriminate.
  - destruct (eqb_spec c "<"%char) as [->|N].
    + rewrite name_at_spec by reflexivity. rewrite tag_chars. cbn. split.
      * intros (-> & H1 & H2). auto.
      * intros ((H1 & H2) & [= ->]). auto.
    + split; [discriminate|]. intros (_ & [= -> _]). destruct N. reflexivity.
Qed.
Lemma cap_chars c : fcus_char c = true <-> cap_char c.
Proof.
  unfold fcus_char, cap_char, is_digit.
  rewrite !orb_true_iff, !andb_true_iff, !Z.leb_le, !eqb_eq. tauto.
Qed.
Lemma ftag_at_spec s n r : ftag_at s = Some (n, r) <-> cap_name n /\ s = tx "<F-" ++ n ++ gt :: r.
Proof.
  unfold cap_name, ftag_at.
  assert (D : forall n, Forall (fun c => fcus_char c = true) n <-> Forall cap_char n)
    by (intros m; rewrite !Forall_forall; setoid_rewrite cap_chars; tauto).
  destruct s as [|a [|b [|c s]]].
  1-3: split; [discriminate|]; intros (_ & H); apply (f_equal (@length ascii)) in H; cbn in H; rewrite ?app_length in H; cbn in H; lia.
  destruct (eqb_spec [a; b; c] (tx "<F-")) as [E|N].
  - injection E as -> -> ->. rewrite name_at_spec by reflexivity. rewrite D. split.
    + intros (-> & H1 & H2). auto.
    + intros ((H1 & H2) & H). injection H as ->. auto.
  - split; [discriminate|]. intros (_ & H). destruct N. cbn in H |- *. now injection H as -> -> -> _.
Qed.

Section Gsub.
Context {V : Type} (open : text) (name : text -> Prop) (at_ : text -> option (text * text)).
Context (at_ok : forall s n r, at_ s = Some (n, r) <-> name n /\ s = open ++ n ++ gt :: r).
Context (f : V -> text -> text -> V * text).
Fixpoint run (v : V) (ps : list piece) : V * text :=
  match ps with
  | [] => (v, [])
  | Lit c :: r => let '(v, t) := run v r in (v, c :: t)
  | Tag n :: r => let '(v, t) := f v n (open ++ n ++ [gt]) in let '(v, t') := run v r in (v, t ++ t')
  end.
Lemma gsub_run : forall fuel v s, (length s <= fuel)%nat -> exists ps, parsed open name s ps /\ gsub at_ f fuel v s = run v ps.
Proof.
  induction fuel as [|k IH]; intros v s L.
  { destruct s; [|cbn in L; lia]. exists []. split; [constructor|reflexivity]. }
  destruct s as [|c s]; [exists []; split; [constructor|reflexivity]|].
  cbn [gsub]. destruct (at_ (c :: s)) as [[n r]|] eqn:E.
  - apply at_ok in E. destruct E as (Hn & E).
    assert (Lr : (length r <= k)%nat).
    { apply (f_equal (@length ascii)) in E. rewrite !app_length in E. cbn in E, L. lia. }
    assert (Em : firstn (length (c :: s) - length r) (c :: s) = open ++ n ++ [gt]).
    { rewrite E. replace (open ++ n ++ gt :: r) with ((open ++ n ++ [gt]) ++ r) by (rewrite <- !app_assoc; reflexivity).
      rewrite app_length, Nat.add_sub, firstn_app, Nat.sub_diag, firstn_all. cbn. now rewrite app_nil_r. }
    rewrite Em. destruct (f v n (open ++ n ++ [gt])) as [v1 t] eqn:Ef.
    destruct (IH v1 r Lr) as (ps & Hp & He). exists (Tag n :: ps). split.
    + rewrite E. now constructor.
    + cbn [run]. rewrite Ef, He. destruct (run v1 ps). reflexivity.
  - cbn in L. destruct (IH v s ltac:(lia)) as (ps & Hp & He). exists (Lit c :: ps). split.
    + constructor; auto. intros n r Hn H. rewrite (proj2 (at_ok _ n r)) in E; [discriminate|]. auto.
    + cbn [run]. rewrite He. reflexivity.
Qed.
End Gsub.

(** the reading of a text is unique *)
Lemma parsed_tag_unique open n r n' r' : ~ In gt n -> ~ In gt n' -> open ++ n ++ gt :: r = open ++ n' ++ gt :: r' -> n = n' /\ r = r'.
Proof.
  intros A B H. apply app_inv_head in H.
  revert n' A B H. induction n as [|c n IH]; intros [|c' n'] A B H; cbn in H.
  - injection H as ->. auto.
  - injection H as <- _. destruct B. now left.
  - injection H as -> _. destruct A. now left.
  - injection H as <- H. destruct (IH n') as (-> & ->); auto; intros I; [apply A|apply B]; now right.
Qed.
Lemma parsed_fun open (name : text -> Prop) s ps : (forall n, name n -> ~ In gt n) -> open <> [] -> parsed open name s ps -> forall qs, parsed open name s qs -> ps = qs.
Proof.
  intros Hg Ho. induction 1 as [|n s ps Hn Hp IH|c s ps Hc Hp IH]; intros qs Hq.
  - inversion Hq as [|n0 s0 ps0 Hn0 Hp0 E|]; [reflexivity|]. destruct open; [congruence|discriminate].
  - inversion Hq as [E|n0 s0 ps0 Hn0 Hp0 E|c0 s0 ps0 Hc0 Hp0 E]; subst.
    + destruct open; [congruence|discriminate].
    + apply parsed_tag_unique in E; auto. destruct E as (-> & ->). f_equal. auto.
    + exfalso. eapply Hc0; eauto.
  - inversion Hq as [|n0 s0 ps0 Hn0 Hp0 E|c0 s0 ps0 Hc0 Hp0 E]; subst.
    + exfalso. eapply Hc; eauto.
    + f_equal. auto.
Qed.
Lemma cap_no_gt n : cap_name n -> ~ In gt n.
Proof.
  intros (_ & F) I. rewrite Forall_forall in F. specialize (F _ I). unfold cap_char in F.
  change (char_code gt) with 62 in F. destruct F as [F|[F|[F|F]]]; [lia|lia|discriminate|discriminate].
Qed.
Lemma tag_no_gt n : tag_name n -> ~ In gt n.
Proof. now intros (_ & _ & _ & H). Qed.

(** ** special characters *)
Lemma special_meta c : special c = true <-> In c meta.
Proof.
  unfold special. rewrite existsb_exists. split.
  - intros (x & I & E). apply eqb_true in E. subst x. exact I.
  - intros I. exists c. split; [exact I|]. apply eqb_refl.
Qed.
Lemma special_harmless v : existsb special v = false <-> harmless v.
Proof.
  unfold harmless. split.
  - intros E c I Hm. apply special_meta in Hm. assert (existsb special v = true) by (apply existsb_exists; eauto). congruence.
  - intros H. destruct (existsb special v) eqn:E; [|reflexivity]. apply existsb_exists in E. destruct E as (c & I & S).
    destruct (H c I). now apply special_meta.
Qed.
Lemma special_harmful v : existsb special v = true <-> ~ harmless v.
Proof. rewrite <- special_harmless. destruct (existsb special v); split; congruence. Qed.
Lemma word_identb c : word_char c = identb c.
Proof. reflexivity. Qed.
Lemma var_variable n : var_name n = variable n.
Proof. reflexivity. Qed.

(** ** escapeTag *)
Lemma unescape_char c t : unescape (escape_char c ++ t) = c :: unescape t.
Proof. destruct c as [[] [] [] [] [] [] [] []]; reflexivity. Qed.
Lemma escape_round v : unescape (escape_tag v) = v.
Proof. induction v as [|c v IH]; [reflexivity|]. unfold escape_tag in *. cbn [map concat]. rewrite unescape_char, IH. reflexivity. Qed.
Lemma unquote_char c t : c <> nl -> c <> cr -> unquote (escape_char c ++ t) = c :: unquote t.
Proof. intros A B. destruct c as [[] [] [] [] [] [] [] []]; try reflexivity; first [destruct A; reflexivity | destruct B; reflexivity]. Qed.
Lemma escape_shell v : ~ In nl v -> ~ In cr v -> unquote (escape_tag v) = v.
Proof.
  induction v as [|c v IH]; intros A B; [reflexivity|]. unfold escape_tag in *. cbn [map concat]. rewrite unquote_char, IH; auto.
  - intros I; apply A; now right.
  - intros I; apply B; now right.
  - intros ->; apply A; now left.
  - intros ->; apply B; now left.
Qed.
Lemma bare_char c t : bare (escape_char c ++ t) = (if special c then [] else [c]) ++ bare t.
Proof. destruct c as [[] [] [] [] [] [] [] []]; reflexivity. Qed.
Lemma escape_bare v : bare (escape_tag v) = filter (fun c => negb (special c)) v.
Proof.
  induction v as [|c v IH]; [reflexivity|]. unfold escape_tag in *. cbn [map concat filter]. rewrite bare_char, IH.
  destruct (special c); reflexivity.
Qed.
Lemma escape_id v : harmless v -> escape_tag v = v.
Proof.
  intros H. induction v as [|c v IH]; [reflexivity|]. unfold escape_tag in *. cbn [map concat].
  rewrite IH by (intros x I; apply H; now right).
  unfold escape_char. destruct (special c) eqn:E; [|reflexivity].
  apply special_meta in E. destruct (H c); [now left|exact E].
Qed.
Lemma escape_only_letters v c : In c (escape_tag v) -> c <> nl /\ c <> cr.
Proof.
  unfold escape_tag. rewrite in_concat. intros (x & I & J). apply in_map_iff in I. destruct I as (d & <- & _).
  unfold escape_char in J. destruct (special d) eqn:E.
  - destruct J as [<-|[<-|[]]]; [split; discriminate|].
    destruct (eqb_spec d (ascii_of_nat 10)); [split; discriminate|].
    destruct (eqb_spec d (ascii_of_nat 13)); [split; discriminate|]. split; assumption.
  - destruct J as [<-|[]]. split; intros ->; discriminate.
Qed.

(** ** replaceDynamicTags *)
Section Dyn.
Context (add : text -> option text) (info tick : text -> option text).

Definition shown (n v : text) : text := if existsb special v then "$"%char :: var_name n else v.
Definition keep (n v : text) (vars : dict text text) := if existsb special v then dset (var_name n) v vars else vars.
Definition shown1 (p : piece) : text :=
  match p with
  | Lit c => [c]
  | Tag n => match info n with Some v => shown n v | None => match add n with Some v => v | None => [lt] ++ n ++ [gt] end end
  end.
Definition keep1 (vars : dict text text) (p : piece) :=
  match p with Lit _ => vars | Tag n => match info n with Some v => keep n v vars | None => vars end end.
Definition tickname (n : text) := tx "F_" ++ map_tag2opt n.
Definition shown2 (p : piece) : text :=
  match p with Lit c => [c] | Tag n => match tick (map_tag2opt n) with Some v => shown (tickname n) v | None => [] end end.
Definition keep2 (vars : dict text text) (p : piece) :=
  match p with Lit _ => vars | Tag n => match tick (map_tag2opt n) with Some v => keep (tickname n) v vars | None => vars end end.

Lemma run1 : forall ps vars, run [lt] (subst_dyn add info) vars ps = (fold_left keep1 ps vars, concat (map shown1 ps)).
Proof.
  induction ps as [|[c|n] ps IH]; intros vars; [reflexivity| |]; cbn [run fold_left map concat keep1 shown1].
  - rewrite IH. reflexivity.
  - unfold subst_dyn. destruct (info n) as [v|].
    + unfold escape_val, keep, shown. destruct (existsb special v); rewrite IH; reflexivity.
    + rewrite IH. reflexivity.
Qed.
Lemma run2 : forall ps vars, run (tx "<F-") (subst_tick tick) vars ps = (fold_left keep2 ps vars, concat (map shown2 ps)).
Proof.
  induction ps as [|[c|n] ps IH]; intros vars; [reflexivity| |]; cbn [run fold_left map concat keep2 shown2].
  - rewrite IH. reflexivity.
  - unfold subst_tick. destruct (tick (map_tag2opt n)) as [v|].
    + unfold escape_val, keep, shown, tickname. destruct (existsb special v); rewrite IH; reflexivity.
    + rewrite IH. reflexivity.
Qed.
Lemma no_lt_lits s : has "<"%char s = false -> parsed (tx "<F-") cap_name s (map Lit s).
Proof.
  induction s as [|c s IH]; intros H; [constructor|]. unfold has in *. cbn [existsb] in H. apply orb_false_iff in H. destruct H as (H1 & H2).
  cbn [map]. constructor; auto. intros n r _ E. injection E as E _. subst c. cbv in H1. discriminate.
Qed.
Lemma dyn_eq cmd : exists ps qs, parsed [lt] tag_name cmd ps /\ parsed (tx "<F-") cap_name (concat (map shown1 ps)) qs /\
  replace_dynamic_tags add cmd info tick =
    (let vars := fold_left keep2 qs (fold_left keep1 ps []) in let s := concat (map shown2 qs) in
     match vars with [] => Script s | _ => build_shell_cmd s vars end).
Proof.
  unfold replace_dynamic_tags, sub_tags.
  destruct (gsub_run [lt] tag_name tag_at tag_at_spec (subst_dyn add info) (length cmd) [] cmd (le_n _)) as (ps & Hp & E).
  rewrite E, run1. set (s1 := concat (map shown1 ps)). set (v1 := fold_left keep1 ps []).
  destruct (has "<"%char s1) eqn:Hl.
  - destruct (gsub_run (tx "<F-") cap_name ftag_at ftag_at_spec (subst_tick tick) (length s1) v1 s1 (le_n _)) as (qs & Hq & E2).
    rewrite E2, run2. exists ps, qs. auto.
  - exists ps, (map Lit s1). repeat split; auto. now apply no_lt_lits.
    assert (A : fold_left keep2 (map Lit s1) v1 = v1) by (clear; induction s1; [reflexivity|exact IHs1]).
    assert (B : concat (map shown2 (map Lit s1)) = s1) by (clear; induction s1 as [|c s IH]; [reflexivity|cbn; now rewrite IH]).
    cbv zeta. fold v1. rewrite A, B. reflexivity.
Qed.

(** the variables: their names and values *)
Definition uses1 (ps : list piece) (x v : text) : Prop := exists n, In (Tag n) ps /\ info n = Some v /\ ~ harmless v /\ x = variable n.
Definition uses2 (ps : list piece) (x v : text) : Prop := exists n, In (Tag n) ps /\ tick (map_tag2opt n) = Some v /\ ~ harmless v /\ x = variable (tickname n).

Lemma keep1_wf ps : forall vars, dwf vars -> dwf (fold_left keep1 ps vars).
Proof.
  induction ps as [|[c|n] ps IH]; intros vars W; cbn; auto. destruct (info n) as [v|]; auto. apply IH. unfold keep.
  destruct (existsb special v); auto. now apply dwf_dset.
Qed.
Lemma keep2_wf ps : forall vars, dwf vars -> dwf (fold_left keep2 ps vars).
Proof.
  induction ps as [|[c|n] ps IH]; intros vars W; cbn; auto. destruct (tick (map_tag2opt n)) as [v|]; auto. apply IH. unfold keep.
  destruct (existsb special v); auto. now apply dwf_dset.
Qed.
Lemma keep_get n v vars x : dget x (keep n v vars) = if existsb special v && eqb x (var_name n) then Some v else dget x vars.
Proof.
  unfold keep. destruct (existsb special v); [|reflexivity]. rewrite dget_dset. cbn [andb].
  destruct (eqb_spec x (var_name n)) as [->|N]; [rewrite ?eqb_refl; reflexivity|].
  destruct (eqb_spec (var_name n) x); [congruence|reflexivity].
Qed.
Lemma keep1_get ps : forall vars x v, dget x (fold_left keep1 ps vars) = Some v -> dget x vars = Some v \/ uses1 ps x v.
Proof.
  induction ps as [|[c|n] ps IH]; intros vars x v H; cbn [fold_left keep1 keep2] in H; auto.
  - apply IH in H. destruct H as [H|(m & I & H)]; [now left|right; exists m; split; [now right|exact H]].
  - destruct (info n) as [w|] eqn:E.
    + apply IH in H. destruct H as [H|(m & I & H)]; [|right; exists m; split; [now right|exact H]].
      rewrite keep_get in H. destruct (existsb special w) eqn:S; cbn [andb] in H; [|now left].
      destruct (eqb_spec x (var_name n)) as [->|]; [|now left]. injection H as <-. right. exists n. split; [now left|].
      repeat split; auto. now apply special_harmful.
    + apply IH in H. destruct H as [H|(m & I & H)]; [now left|right; exists m; split; [now right|exact H]].
Qed.
Lemma keep2_get ps : forall vars x v, dget x (fold_left keep2 ps vars) = Some v -> dget x vars = Some v \/ uses2 ps x v.
Proof.
  induction ps as [|[c|n] ps IH]; intros vars x v H; cbn [fold_left keep1 keep2] in H; auto.
  - apply IH in H. destruct H as [H|(m & I & H)]; [now left|right; exists m; split; [now right|exact H]].
  - destruct (tick (map_tag2opt n)) as [w|] eqn:E.
    + apply IH in H. destruct H as [H|(m & I & H)]; [|right; exists m; split; [now right|exact H]].
      rewrite keep_get in H. destruct (existsb special w) eqn:S; cbn [andb] in H; [|now left].
      destruct (eqb_spec x (var_name (tickname n))) as [->|]; [|now left]. injection H as <-. right. exists n. split; [now left|].
      repeat split; auto. now apply special_harmful.
    + apply IH in H. destruct H as [H|(m & I & H)]; [now left|right; exists m; split; [now right|exact H]].
Qed.
Lemma keep1_mono ps : forall vars x, In x (dkeys vars) -> In x (dkeys (fold_left keep1 ps vars)).
Proof.
  induction ps as [|[c|n] ps IH]; intros vars x I; cbn [fold_left keep1 keep2]; auto. destruct (info n) as [v|]; auto. apply IH. unfold keep.
  destruct (existsb special v); auto. rewrite dkeys_dset. match goal with |- context [if ?b then _ else _] => destruct b end; auto. apply in_or_app; auto.
Qed.
Lemma keep2_mono ps : forall vars x, In x (dkeys vars) -> In x (dkeys (fold_left keep2 ps vars)).
Proof.
  induction ps as [|[c|n] ps IH]; intros vars x I; cbn [fold_left keep1 keep2]; auto. destruct (tick (map_tag2opt n)) as [v|]; auto. apply IH. unfold keep.
  destruct (existsb special v); auto. rewrite dkeys_dset. match goal with |- context [if ?b then _ else _] => destruct b end; auto. apply in_or_app; auto.
Qed.
Lemma keep1_has ps : forall vars x v, uses1 ps x v -> In x (dkeys (fold_left keep1 ps vars)).
Proof.
  induction ps as [|p ps IH]; intros vars x v (n & I & Hi & Hh & ->); [destruct I|].
  cbn [fold_left]. destruct I as [->|I].
  - cbn [keep1]. rewrite Hi. apply keep1_mono. unfold keep. rewrite (proj2 (special_harmful v) Hh).
    rewrite <- var_variable. eapply dget_key. apply dget_dset_same.
  - apply IH with v. exists n. auto.
Qed.
Lemma keep2_has ps : forall vars x v, uses2 ps x v -> In x (dkeys (fold_left keep2 ps vars)).
Proof.
  induction ps as [|p ps IH]; intros vars x v (n & I & Hi & Hh & ->); [destruct I|].
  cbn [fold_left]. destruct I as [->|I].
  - cbn [keep2]. rewrite Hi. apply keep2_mono. unfold keep. rewrite (proj2 (special_harmful v) Hh).
    rewrite <- var_variable. eapply dget_key. apply dget_dset_same.
  - apply IH with v. exists n. auto.
Qed.
End Dyn.

(** ** subsequences *)
Lemma subseq_refl {A} (l : list A) : subseq l l.
Proof. induction l; [constructor|now apply sub_keep]. Qed.
Lemma subseq_nil {A} (l : list A) : subseq [] l.
Proof. induction l; constructor; auto. Qed.
Lemma subseq_app {A} (a b c d : list A) : subseq a b -> subseq c d -> subseq (a ++ c) (b ++ d).
Proof. induction 1; intros; cbn; [auto|apply sub_skip; auto|apply sub_keep; auto]. Qed.
Lemma subseq_trans {A} (a b c : list A) : subseq a b -> subseq b c -> subseq a c.
Proof.
  intros H1 H2. revert a H1. induction H2 as [|x b c H IH|x b c H IH]; intros a H1.
  - exact H1.
  - apply sub_skip. auto.
  - inversion H1; subst; [apply sub_skip|apply sub_keep]; auto.
Qed.
Lemma filter_none {A} (p : A -> bool) l : (forall x, In x l -> p x = false) -> filter p l = [].
Proof. induction l as [|x l IH]; intros H; [reflexivity|]. cbn. rewrite (H x) by now left. apply IH. intros y I; apply H; now right. Qed.
Lemma filter_app2 {A} (p : A -> bool) a b : filter p (a ++ b) = filter p a ++ filter p b.
Proof. apply filter_app. Qed.

Section Specials.
Context (bad : ascii -> bool).
Context (bad_special : forall c, bad c = true -> special c = true).
Context (bad_dollar : bad "$"%char = false).
Lemma word_no_bad c : word_char c = true -> special c = false.
Proof. destruct c as [[] [] [] [] [] [] [] []]; vm_compute; congruence. Qed.
Lemma var_no_bad n : filter bad ("$"%char :: var_name n) = [].
Proof.
  apply filter_none. intros x [<-|I]; [exact bad_dollar|].
  assert (special x = false).
  { unfold var_name in I. apply in_app_or in I. destruct I as [I|I].
    - apply word_no_bad. cbn in I. destruct I as [<-|[<-|[<-|[<-|[<-|[]]]]]]; reflexivity.
    - apply in_map_iff in I. destruct I as (c & <- & _). destruct (word_char c) eqn:E; [now apply word_no_bad|reflexivity]. }
  destruct (bad x) eqn:E; [|reflexivity]. apply bad_special in E. congruence.
Qed.
Lemma shown_no_bad n v : filter bad (shown n v) = [].
Proof.
  unfold shown. destruct (existsb special v) eqn:E; [apply var_no_bad|]. apply filter_none. intros x I.
  destruct (bad x) eqn:B; [|reflexivity]. apply bad_special in B.
  assert (existsb special v = true) by (apply existsb_exists; eauto). congruence.
Qed.
Lemma specials1 add info s ps : (forall n v, add n = Some v -> filter bad v = []) ->
  parsed [lt] tag_name s ps -> subseq (filter bad (concat (map (shown1 add info) ps))) (filter bad s).
Proof.
  intros Ha. induction 1 as [|n s ps Hn Hp IH|c s ps Hc Hp IH]; [constructor| |].
  - cbn [map concat shown1].
    replace ([lt] ++ n ++ gt :: s) with (([lt] ++ n ++ [gt]) ++ s) by (rewrite <- !app_assoc; reflexivity).
    rewrite !filter_app2. apply subseq_app; [|exact IH].
    destruct (info n) as [v|]; [rewrite shown_no_bad; apply subseq_nil|].
    destruct (add n) as [v|] eqn:E; [rewrite (Ha _ _ E); apply subseq_nil|]. rewrite <- !filter_app2. apply subseq_refl.
  - cbn [map concat shown1]. change (c :: s) with ([c] ++ s). rewrite !filter_app2. apply subseq_app; [apply subseq_refl|exact IH].
Qed.
Lemma specials2 tick s ps : parsed (tx "<F-") cap_name s ps -> subseq (filter bad (concat (map (shown2 tick) ps))) (filter bad s).
Proof.
  induction 1 as [|n s ps Hn Hp IH|c s ps Hc Hp IH]; [constructor| |].
  - cbn [map concat shown2].
    replace (tx "<F-" ++ n ++ gt :: s) with ((tx "<F-" ++ n ++ [gt]) ++ s) by (rewrite <- !app_assoc; reflexivity).
    rewrite !filter_app2. apply subseq_app; [|exact IH].
    destruct (tick (map_tag2opt n)) as [v|]; [rewrite shown_no_bad|]; apply subseq_nil.
  - cbn [map concat shown2]. change (c :: s) with ([c] ++ s). rewrite !filter_app2. apply subseq_app; [apply subseq_refl|exact IH].
Qed.
End Specials.

(** ** the shell reads the variables *)
Definition namelike (x : text) : Prop := forall c, In c x -> identb c = true.
Lemma variable_namelike n : namelike (variable n).
Proof.
  intros c I. unfold variable in I. apply in_app_or in I. destruct I as [I|I].
  - cbn in I. destruct I as [<-|[<-|[<-|[<-|[<-|[]]]]]]; reflexivity.
  - apply in_map_iff in I. destruct I as (d & <- & _). destruct (identb d) eqn:E; [exact E|reflexivity].
Qed.
Lemma first_line_app a b : ~ In nl a -> first_line (a ++ nl :: b) = a.
Proof.
  induction a as [|c a IH]; intros H; cbn [app first_line].
  - rewrite eqb_refl. reflexivity.
  - destruct (eqb_spec c nl) as [->|]; [destruct H; now left|]. rewrite IH; auto. intros I; apply H; now right.
Qed.
Lemma cut_at_app c a b : ~ In c a -> cut_at c (a ++ c :: b) = Some (a, b).
Proof.
  induction a as [|x a IH]; intros H; cbn [app cut_at].
  - rewrite eqb_refl. reflexivity.
  - destruct (eqb_spec x c) as [->|]; [destruct H; now left|]. rewrite IH; auto. intros I; apply H; now right.
Qed.
Lemma dec_small i : 0 <= i < 10 -> dec i = [digit_char i].
Proof.
  intros H. assert (E : i = 0 \/ i = 1 \/ i = 2 \/ i = 3 \/ i = 4 \/ i = 5 \/ i = 6 \/ i = 7 \/ i = 8 \/ i = 9) by lia.
  repeat (destruct E as [->|E]; [vm_compute; reflexivity|]). subst; vm_compute; reflexivity.
Qed.
Lemma namelike_free x c : namelike x -> identb c = false -> ~ In c x.
Proof. intros H E I. apply H in I. congruence. Qed.
Lemma digit_char_digit i : 0 <= i < 10 -> is_digit (digit_char i) = true /\ Z.to_nat (char_code (digit_char i) - 48) = Z.to_nat i /\ digit_char i <> sp /\ digit_char i <> nl.
Proof.
  intros H. assert (E : i = 0 \/ i = 1 \/ i = 2 \/ i = 3 \/ i = 4 \/ i = 5 \/ i = 6 \/ i = 7 \/ i = 8 \/ i = 9) by lia.
  repeat (destruct E as [->|E]; [repeat split; try reflexivity; vm_compute; discriminate|]). subst; repeat split; try reflexivity; vm_compute; discriminate.
Qed.
Lemma vars_stat_nl vars : forall i, 0 <= i -> i + Z.of_nat (length vars) <= 10 -> Forall (fun kv => namelike (fst kv)) vars -> ~ In nl (vars_stat i vars).
Proof.
  induction vars as [|[k v] vars IH]; intros i Hi Hl F; [intros []|]. cbn [vars_stat length] in *. inversion F as [|? ? F1 F2]; subst. cbn in F1.
  rewrite dec_small by lia. destruct (digit_char_digit i ltac:(lia)) as (_ & _ & _ & D).
  rewrite !in_app_iff. intros [I|[I|[I|[I|I]]]].
  - apply F1 in I. discriminate.
  - cbn in I. destruct I as [I|[I|[]]]; discriminate.
  - destruct I as [I|[]]. congruence.
  - destruct I as [I|[]]. discriminate.
  - revert I. apply IH; auto; lia.
Qed.
Lemma vars_stat_read vars : forall i args, 0 <= i -> i + Z.of_nat (length vars) <= 10 -> Forall (fun kv => namelike (fst kv)) vars ->
  (forall j kv, nth_error vars j = Some kv -> nth (Z.to_nat i + j) args [] = snd kv) ->
  concat (map (assignment args) (split sp (vars_stat i vars))) = vars.
Proof.
  induction vars as [|[k v] vars IH]; intros i args Hi Hl F A; [reflexivity|]. cbn [vars_stat length] in *. inversion F as [|? ? F1 F2]; subst. cbn in F1.
  rewrite dec_small by lia. destruct (digit_char_digit i ltac:(lia)) as (D1 & D2 & D3 & _).
  set (w := k ++ tx "=$" ++ [digit_char i]).
  replace (k ++ tx "=$" ++ [digit_char i] ++ [" "%char] ++ vars_stat (i + 1) vars) with (w ++ sp :: vars_stat (i + 1) vars)
    by (unfold w; rewrite <- !app_assoc; reflexivity).
  assert (Fw : ~ In sp w).
  { unfold w. rewrite !in_app_iff. intros [I|[I|I]].
    - apply F1 in I. discriminate.
    - cbn in I. destruct I as [I|[I|[]]]; discriminate.
    - destruct I as [I|[]]. congruence. }
  rewrite split_app by exact Fw. cbn [map concat].
  rewrite IH; auto; try lia.
  - replace (assignment args w) with [(k, v)]; [reflexivity|]. unfold assignment, w.
    change (k ++ tx "=$" ++ [digit_char i]) with (k ++ "="%char :: ["$"%char; digit_char i]).
    rewrite cut_at_app by (intros I; apply F1 in I; discriminate).
    unfold word_value. rewrite D1, eqb_refl. cbn [andb]. rewrite D2.
    pose proof (A 0%nat (k, v) eq_refl) as A0. rewrite Nat.add_0_r in A0. cbn [snd] in A0. unfold text in *. rewrite A0, app_nil_r. reflexivity.
  - intros j kv Hj. rewrite <- (A (S j) kv Hj). f_equal. lia.
Qed.
Lemma shell_vars_ok vars cmd : (length vars <= 10)%nat -> Forall (fun kv => namelike (fst kv)) vars ->
  shell_vars (vars_stat 0 vars ++ nl :: cmd) (map snd vars) = vars.
Proof.
  intros L F. unfold shell_vars. rewrite first_line_app by (apply vars_stat_nl; auto; unfold text in *; lia).
  apply vars_stat_read; [lia|unfold text in *; lia|exact F|].
  intros j kv H. cbn [Z.to_nat Nat.add]. replace [] with (snd (@nil ascii, @nil ascii)) by reflexivity.
  rewrite map_nth. erewrite nth_error_nth by eassumption. reflexivity.
Qed.
