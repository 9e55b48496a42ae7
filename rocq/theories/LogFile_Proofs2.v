(** The two kinds of encodings. *)
From Verif Require Import Base Text LogFile_Model LogFile_Spec LogFile_Proofs.
From Coq Require Import Lia List ZifyBool ZifyNat.
Local Open Scope nat_scope.
Import ListNotations.

Lemma rstrip_trimmed : forall r, trimmed r (rstrip r).
Proof.
  unfold trimmed. induction r as [|c r IH]; cbn [rstrip].
  - exists []. repeat split; [intros _ []| | ]; destruct x; discriminate.
  - destruct IH as (e & E & He & Hl).
    destruct (rstrip r) as [|c' r'] eqn:R.
    + cbn in E. subst e. unfold newline_char. destruct ((c =? 10)%Z || (c =? 13)%Z) eqn:N.
      * exists (c :: r). repeat split.
        -- intros d [<-|D]; [lia|auto].
        -- destruct x; discriminate.
        -- destruct x; discriminate.
      * exists r. repeat split; auto.
        -- destruct x as [|y x]; [injection H as ->; lia|]. destruct x; discriminate.
        -- destruct x as [|y x]; [injection H as ->; lia|]. destruct x; discriminate.
    + exists e. split; [cbn; now rewrite E|]. split; [exact He|].
      intros x d X. destruct x as [|y x]; [discriminate|]. injection X as -> X. eapply Hl; eauto.
Qed.
Lemma rstrip_same : forall r, (exists y z, r = y ++ [z] /\ (z = 10 \/ z = 13)%Z) <-> rstrip r <> r.
Proof.
  intros r. destruct (rstrip_trimmed r) as (e & E & He & Hl). split.
  - intros (y & z & -> & Hz) X. rewrite X in Hl. destruct (Hl y z eq_refl). lia.
  - intros N. destruct e as [|a e] using rev_ind; [rewrite app_nil_r in E; congruence|].
    exists (rstrip r ++ e), a. rewrite <- app_assoc. split; [exact E|]. apply He. apply in_or_app. right. now left.
Qed.
Lemma trimmed_fun : forall r l l', trimmed r l -> trimmed r l' -> l = l'.
Proof.
  assert (X : forall l l' e e', l ++ e = l' ++ e' -> (forall c, In c e -> c = 10%Z \/ c = 13%Z) ->
     (forall x c, l' = x ++ [c] -> c <> 10%Z /\ c <> 13%Z) -> length l' <= length l).
  { intros l l' e e' E He Hl. destruct (Nat.le_gt_cases (length l') (length l)) as [L|L]; [exact L|].
    destruct l' as [|c x] using rev_ind; [cbn in L; lia|]. clear IHx. rewrite app_length in L. cbn in L.
    rewrite <- app_assoc in E.
    assert (I : In c e).
    { assert (E2 : skipn (length l) (l ++ e) = skipn (length l) (x ++ [c] ++ e')) by now rewrite E.
      rewrite skipn_app, skipn_all, Nat.sub_diag in E2. cbn in E2. rewrite E2, skipn_app.
      replace (length l - length x) with 0 by lia. apply in_or_app. right. now left. }
    destruct (Hl x c eq_refl). destruct (He c I); congruence. }
  intros r l l' (e & -> & He & Hl) (e' & E & He' & Hl').
  assert (L : length l = length l').
  { apply Nat.le_antisymm; [eapply (X l' l e' e)|eapply (X l l' e e')]; eauto. }
  apply (f_equal (firstn (length l))) in E. rewrite firstn_app, firstn_all, Nat.sub_diag in E. cbn in E.
  rewrite app_nil_r in E. rewrite L in E. rewrite firstn_app, firstn_all, Nat.sub_diag in E. cbn in E. now rewrite app_nil_r in E.
Qed.

Lemma in_LF_dec : forall r : bytes, {In LF r} + {~ In LF r}.
Proof. intros. apply in_dec. apply Ascii.ascii_dec. Qed.

(** ** encodings like ASCII *)
Section AsciiLike.
Context (dec : bytes -> chars) (enc : chars -> bytes).
Hypothesis like : ascii_like dec.
Definition next_a (r : bytes) : option (chars * nat) :=
  if in_LF_dec r then Some (rstrip (dec (raw_line r)), length (raw_line r)) else None.

Lemma a_nil : no_cr_at_end [].
Proof. intros [|c x]; discriminate. Qed.
Lemma a_len : forall r l n, next_a r = Some (l, n) -> 0 < n <= length r.
Proof.
  unfold next_a. intros r l n. destruct (in_LF_dec r) as [I|]; [|discriminate]. intros H. injection H as _ <-.
  destruct (raw_line_split r I) as (x & r' & -> & _ & ->). rewrite !app_length. cbn. lia.
Qed.
Lemma a_app : forall r l n x, next_a r = Some (l, n) -> next_a (r ++ x) = Some (l, n).
Proof.
  unfold next_a. intros r l n x. destruct (in_LF_dec r) as [I|]; [|discriminate]. intros H.
  destruct (in_LF_dec (r ++ x)) as [_|N]; [now rewrite raw_line_app|]. destruct N. apply in_or_app. now left.
Qed.
Lemma a_split : forall r l n, next_a r = Some (l, n) -> exists x r', r = x ++ LF :: r' /\ ~ In LF x /\ n = length x + 1 /\ l = rstrip (dec (x ++ [LF])) /\ skipn n r = r'.
Proof.
  unfold next_a. intros r l n. destruct (in_LF_dec r) as [I|]; [|discriminate]. intros H. injection H as <- <-.
  destruct (raw_line_split r I) as (x & r' & E & Nx & ->). exists x, r'. rewrite app_length. repeat split; auto.
  subst r. cbn. rewrite skipn_add, skipn_app, skipn_all, Nat.sub_diag. reflexivity.
Qed.
Lemma a_good_next : forall r l n, no_cr_at_end r -> next_a r = Some (l, n) -> no_cr_at_end (skipn n r).
Proof.
  intros r l n G H. apply a_split in H. destruct H as (x & r' & -> & _ & _ & _ & ->). intros y ->.
  apply (G (x ++ LF :: y)). now rewrite <- app_assoc.
Qed.
Lemma a_cr : forall r, no_cr_at_end r -> ends_line (raw_line r) = true -> In LF r.
Proof.
  intros r G H. destruct (in_LF_dec r) as [|N]; [assumption|]. rewrite raw_line_no in H by assumption.
  destruct r as [|c x] using rev_ind; [discriminate|]. rewrite ends_line_snoc in H.
  destruct (Ascii.eqb_spec c LF) as [->|]; [apply in_or_app; right; now left|].
  destruct (Ascii.eqb_spec c CR) as [->|]; [|discriminate]. now destruct (G x).
Qed.
Lemma a_read : forall d p, no_cr_at_end (skipn p d) ->
  readline dec enc d p = match next_a (skipn p d) with Some (l, n) => (Some l, p + n) | None => (None, p) end.
Proof.
  intros d p G. unfold readline, read_raw, next_a.
  destruct (in_LF_dec (skipn p d)) as [I|N].
  - destruct (raw_line_split _ I) as (x & r' & E & Nx & ->). rewrite app_length.
    assert (X : rstrip (dec (x ++ [LF])) <> dec (x ++ [LF])).
    { apply rstrip_same. apply (like (x ++ [LF]) x LF eq_refl Nx). now left. }
    apply eqb_neq in X. destruct (x ++ [LF]) as [|c b] eqn:B; [now destruct x|]. rewrite <- B in *.
    rewrite X. rewrite app_length. reflexivity.
  - rewrite raw_line_no by assumption. destruct (skipn p d) as [|c b] eqn:B; [reflexivity|]. rewrite <- B in *.
    assert (X : rstrip (dec (skipn p d)) = dec (skipn p d)).
    { destruct (eqb_spec (rstrip (dec (skipn p d))) (dec (skipn p d))) as [E|NE]; [exact E|]. apply rstrip_same in NE.
      destruct (exists_last (l := skipn p d)) as (x & z & Ex); [now rewrite B|].
      apply (like (skipn p d) x z Ex) in NE; [|intros I; apply N; rewrite Ex; apply in_or_app; now left].
      destruct NE as [-> | ->]; [destruct N; rewrite Ex; apply in_or_app; right; now left|now apply G in Ex]. }
    rewrite X, eqb_refl. destruct d as [|d1 d]; [now rewrite skipn_nil in B|].
    cbn [length fill]. unfold read_raw. rewrite skipn_add, skipn_all2; [reflexivity|lia].
Qed.

Lemma a_lines : forall r ls m, Path next_a r ls m -> forall xs rest', next_a (skipn m r) = None -> lines_of r xs rest' ->
  Forall2 (fun x l => trimmed (dec (x ++ [LF])) l) xs ls.
Proof.
  induction 1 as [r|r l n ls m N P IH]; intros xs rest' E L.
  - destruct L as (L & Hx & Hr). destruct xs as [|x xs]; [constructor|].
    cbn in E. unfold next_a in E. destruct (in_LF_dec r) as [|I]; [discriminate|]. destruct I. rewrite L. cbn.
    apply in_or_app. left. apply in_or_app. left. apply in_or_app. right. now left.
  - apply a_split in N. destruct N as (x & r' & Er & Nx & -> & -> & Es).
    destruct L as (L & Hx & Hr). destruct xs as [|x' xs].
    + cbn in L. subst rest'. destruct Hr. rewrite Er. apply in_or_app. right. now left.
    + cbn in L. rewrite <- !app_assoc in L. cbn in L. rewrite Er in L.
      assert (U : forall a b c d : bytes, ~ In LF a -> ~ In LF c -> a ++ LF :: b = c ++ LF :: d -> a = c /\ b = d).
      { clear. induction a as [|h a IH]; intros b [|k c] d Na Nc X; cbn in X.
        - injection X as X. auto.
        - injection X as X1 X2. subst k. destruct Nc. now left.
        - injection X as X1 X2. subst h. destruct Na. now left.
        - injection X as X1 X2. subst k. destruct (IH _ _ _ (fun I => Na (or_intror I)) (fun I => Nc (or_intror I)) X2). subst. auto. }
      destruct (U _ _ _ _ Nx (Hx x' (or_introl eq_refl)) L) as [-> Er'].
      constructor; [apply rstrip_trimmed|]. apply (IH xs rest').
      * now rewrite <- skipn_add.
      * rewrite Es, Er'. split; [reflexivity|]. split; [|exact Hr]. intros y Y. apply Hx. now right.
Qed.
Lemma a_prefix : forall r ls m, Path next_a r ls m -> exists xs rest',
   r = concat (map (fun x => x ++ [LF]) xs) ++ rest' /\ length (concat (map (fun x => x ++ [LF]) xs)) = m /\ (forall x, In x xs -> ~ In LF x) /\ Forall2 (fun x l => trimmed (dec (x ++ [LF])) l) xs ls.
Proof.
  induction 1 as [r|r l n ls m N P IH].
  - exists [], r. repeat split; auto.
  - apply a_split in N. destruct N as (x & r' & Er & Nx & -> & -> & Es). rewrite Es in IH.
    destruct IH as (xs & rest' & E & Em & Hx & F). exists (x :: xs), rest'. cbn. rewrite <- !app_assoc. cbn.
    repeat split.
    + now rewrite Er, E.
    + rewrite app_length. cbn. lia.
    + intros y [<-|Y]; auto.
    + constructor; [apply rstrip_trimmed|exact F].
Qed.
End AsciiLike.

Lemma latin_like : ascii_like dec_latin.
Proof.
  intros b x c -> _. unfold dec_latin. rewrite map_app. cbn. split.
  - intros (y & z & E & H). apply app_inj_tail in E. destruct E as [_ <-].
    destruct c as [[] [] [] [] [] [] [] []]; vm_compute in H; destruct H as [H|H]; try discriminate; auto.
  - intros H. eexists _, _. split; [reflexivity|]. destruct H as [-> | ->]; vm_compute; auto.
Qed.
