(** What is found is what the pattern says, and if nothing is found there is nothing. *)
From Coq Require Import ZifyBool ZifyNat.
From Verif Require Import Base Text Strptime_Model Strptime_Spec Template_Model Template_Spec Template_Proofs Template_Proofs2 Template_Proofs3 Template_Proofs4.
Local Open Scope string_scope. Local Open Scope list_scope. Local Open Scope nat_scope.

Lemma same_char_iff ci x c : same_char ci x c <-> accepts ci (fun x => eqb x c) x = true.
Proof. rewrite accepts_one. unfold same_char. destruct ci; intuition congruence. Qed.
Lemma part_name t : part_of t = token_name t.
Proof. now destruct t. Qed.
Definition item_wrote (y : Z) (ci : bool) (i : item) (u : text) (g : list (string * text)) : Prop :=
  match i with
  | Lit c => g = [] /\ exists x, u = [x] /\ same_char ci x c
  | Any => g = [] /\ exists x, u = [x] /\ x <> newline
  | Tok t => exists b v, u = b ++ v /\ may_be_blank t b /\ field_text y ci t v /\ g = [(part_of t, v)]
  end.
Lemma wrote_cons y ci i l s g : wrote y ci (i :: l) s g <->
  exists u w g1 g2, s = u ++ w /\ item_wrote y ci i u g1 /\ wrote y ci l w g2 /\ g = g1 ++ g2.
Proof.
  split.
  - inversion 1; subst.
    + exists [x], s0, [], g. cbn. eauto 8.
    + exists [x], s0, [], g. cbn. eauto 8.
    + exists (b ++ v), s0, [(part_of t, v)], g0. rewrite app_assoc. cbn. eauto 12.
  - intros (u & w & g1 & g2 & -> & I & W & ->). destruct i; cbn in I.
    + destruct I as (-> & x & -> & E). now constructor.
    + destruct I as (-> & x & -> & E). now constructor.
    + destruct I as (b & v & -> & B & F & ->). rewrite <- app_assoc. now constructor.
Qed.
Lemma accepts_any ci x : accepts ci (fun c => negb (eqb c newline)) x = true <-> x <> newline.
Proof.
  assert (H : forall x, eqb (accepts ci (fun c => negb (eqb c newline)) x) (negb (eqb x newline)) = true) by (destruct ci; apply every_char; vm_compute; reflexivity).
  specialize (H x). apply eqb_true in H. rewrite H. destruct (eqb_spec x newline); cbn; intuition congruence.
Qed.
Lemma accepts_blank ci x : accepts ci (fun c => eqb c " "%char) x = true <-> x = " "%char.
Proof.
  assert (H : forall x, eqb (accepts ci (fun c => eqb c " "%char) x) (eqb x " "%char) = true) by (destruct ci; apply every_char; vm_compute; reflexivity).
  specialize (H x). apply eqb_true in H. rewrite H. destruct (eqb_spec x " "%char); cbn; intuition congruence.
Qed.
Definition blank_ways (ci : bool) (t : token) (s : text) : list nat := if blank_before t then lens ci (Opt (one " ")) s else [0].
Lemma blank_iff ci t s n : In n (blank_ways ci t s) <-> n <= length s /\ may_be_blank t (firstn n s).
Proof.
  unfold blank_ways, may_be_blank. assert (E : In t [Tk; Tl; Exk; Exl] <-> blank_before t = true) by (destruct t; cbn; intuition discriminate).
  rewrite E. destruct (blank_before t).
  - rewrite lens_iff. cbn [lang one]. split.
    + intros [L [(c & F & A)|F]]; (split; [exact L|]); [|now left]. right. apply accepts_blank in A as ->. auto.
    + intros [L [F|[F _]]]; (split; [exact L|]); [now right|]. left. exists " "%char. split; [exact F|]. now apply accepts_blank.
  - split.
    + intros [<-|[]]. split; [lia|now left].
    + intros [L [F|[_ [=]]]]. left. destruct n; [reflexivity|]. destruct s; cbn in *; [lia|discriminate].
Qed.
Lemma item_iff y ci i s n g : started y -> In (n, g) (item_ways ci y i s) <-> n <= length s /\ item_wrote y ci i (firstn n s) g.
Proof.
  intros Y. destruct i as [c| |t]; cbn [item_ways item_wrote].
  - rewrite in_map_iff. split.
    + intros (m & [= -> <-] & I). apply lens_iff in I as [L (x & E & A)]. split; [exact L|]. split; [reflexivity|]. exists x. split; [exact E|]. now apply same_char_iff.
    + intros (L & -> & x & E & S'). exists n. split; [reflexivity|]. apply lens_iff. split; [exact L|]. exists x. split; [exact E|]. now apply same_char_iff.
  - rewrite in_map_iff. split.
    + intros (m & [= -> <-] & I). apply lens_iff in I as [L (x & E & A)]. split; [exact L|]. split; [reflexivity|]. exists x. split; [exact E|]. now apply accepts_any in A.
    + intros (L & -> & x & E & S'). exists n. split; [reflexivity|]. apply lens_iff. split; [exact L|]. exists x. split; [exact E|]. now apply accepts_any.
  - change (if blank_before t then lens ci (Opt (one " ")) s else [0]) with (blank_ways ci t s). rewrite in_flat_map. split.
    + intros (n0 & B & I). apply in_map_iff in I as (m & [= <- <-] & I). apply blank_iff in B as [L0 B]. apply lens_iff in I as [L I].
      rewrite skipn_length in L. split; [lia|]. exists (firstn n0 s), (firstn m (skipn n0 s)). split; [apply firstn_add|]. split; [exact B|].
      split; [now apply field_iff|]. now rewrite (part_name t).
    + intros (L & b & v & E & B & F & ->).
      assert (LN : length b + length v = n) by (rewrite <- app_length, <- E; apply firstn_length_le; lia).
      assert (FB : firstn (length b) s = b).
      { replace b with (firstn (length b) (firstn n s)) at 2 by (rewrite E, firstn_app, Nat.sub_diag, firstn_all, firstn_O; apply app_nil_r).
        rewrite firstn_firstn. f_equal. lia. }
      assert (FV : firstn (length v) (skipn (length b) s) = v) by (rewrite firstn_skipn_comm, LN, E, skipn_app, skipn_all, Nat.sub_diag; reflexivity).
      exists (length b). split; [apply blank_iff; rewrite FB; split; [lia|exact B]|]. apply in_map_iff. exists (length v). rewrite FV, LN, (part_name t).
      split; [reflexivity|]. apply lens_iff. rewrite skipn_length, FV. split; [lia|]. now apply field_iff.
Qed.
Lemma ways_iff y ci l : started y -> forall s n g, In (n, g) (ways ci y l s) <-> n <= length s /\ wrote y ci l (firstn n s) g.
Proof.
  intros Y. induction l as [|i l IH]; intros s n g; cbn [ways].
  - split.
    + intros [[= <- <-]|[]]. split; [lia|constructor].
    + intros [L W]. left. inversion W as [E| | |]. destruct n; [reflexivity|]. destruct s; cbn in *; [lia|discriminate].
  - rewrite in_flat_map. split.
    + intros ([n1 g1] & I & J). apply in_map_iff in J as ([m h] & [= <- <-] & J). apply item_iff in I as [L1 I]; [|exact Y].
      apply IH in J as [L2 J]. rewrite skipn_length in L2. split; [lia|]. apply wrote_cons. exists (firstn n1 s), (firstn m (skipn n1 s)), g1, h.
      split; [apply firstn_add|]. auto.
    + intros [L W]. apply wrote_cons in W as (u & w & g1 & g2 & E & I & W & ->).
      assert (LN : length u + length w = n) by (rewrite <- app_length, <- E; apply firstn_length_le; lia).
      assert (FU : firstn (length u) s = u).
      { replace u with (firstn (length u) (firstn n s)) at 2 by (rewrite E, firstn_app, Nat.sub_diag, firstn_all, firstn_O; apply app_nil_r).
        rewrite firstn_firstn. f_equal. lia. }
      exists (length u, g1). split; [apply item_iff; [exact Y|]; rewrite FU; split; [lia|exact I]|]. apply in_map_iff. exists (length w, g2).
      split; [f_equal; lia|]. apply IH. rewrite skipn_length. split; [lia|]. now rewrite firstn_skipn_comm, LN, E, skipn_app, skipn_all, Nat.sub_diag.
Qed.

(** * Where *)
Lemma word_iff c : word_char c <-> is_word c = true.
Proof.
  unfold word_char, is_word, is_alnum, is_digit.
  assert (H : eqb c "_"%char = (char_code c =? 95)%Z).
  { apply eqb_true. revert c. apply every_char. vm_compute. reflexivity. }
  rewrite H. lia.
Qed.
Definition inside_b (b s : text) : bool := wordy (last_char b) && wordy (hd_error s).
Lemma last_snoc b c : last_char (b ++ [c]) = Some c.
Proof. unfold last_char. now rewrite rev_app_distr. Qed.
Lemma last_some b c : last_char b = Some c -> exists p, b = p ++ [c].
Proof.
  unfold last_char. intros H. destruct (rev b) as [|x r] eqn:E; [discriminate|]. cbn in H. injection H as ->. exists (rev r).
  now rewrite <- (rev_involutive b), E.
Qed.
Lemma inside_iff b s : inside_word b s <-> inside_b b s = true.
Proof.
  unfold inside_word, inside_b. rewrite andb_true_iff. split.
  - intros (p & c & d & q & -> & -> & C & D0). rewrite last_snoc. cbn. now rewrite <- !word_iff.
  - intros [A B]. destruct (last_char b) as [c|] eqn:E; [|discriminate]. apply last_some in E as (p & ->). destruct s as [|d q]; [discriminate|].
    exists p, c, d, q. cbn in *. now rewrite !word_iff.
Qed.
Lemma begin_word b s : s <> [] -> starts b || boundary b s || nonword_next s = true <-> ~ inside_word b s.
Proof.
  intros N. rewrite inside_iff. unfold inside_b, boundary, nonword_next, starts, last_char. destruct s as [|d q]; [congruence|]. cbn [hd_error wordy].
  destruct b as [|x b]; [cbn; intuition congruence|]. destruct (hd_error (rev (x :: b))) as [c|]; cbn [wordy]; [destruct (is_word c)|]; destruct (is_word d); cbn; intuition congruence.
Qed.
Lemma end_word b s : boundary b s || nonword_next s || at_end s = true <-> ~ inside_word b s.
Proof.
  rewrite inside_iff. unfold inside_b, boundary, nonword_next. destruct s as [|d q]; cbn [hd_error wordy at_end].
  - rewrite andb_false_r, orb_true_r. intuition congruence.
  - destruct (wordy (last_char b)), (is_word d) eqn:D1; cbn; try intuition congruence.
    + destruct q; [|intuition congruence]. destruct (eqb_spec d newline) as [->|]; [discriminate|intuition congruence].
Qed.
Lemma end_iff e b s : end_ok e b s = true <-> ends_well e b s.
Proof.
  destruct e; cbn [end_ok ends_well].
  - apply end_word.
  - intuition.
  - unfold at_end. destruct s as [|c [|d s]]; [intuition| |intuition discriminate]. destruct (eqb_spec c newline) as [->|E]; [intuition|].
    split; [discriminate|]. intros [H|H]; [discriminate|congruence].
Qed.
Lemma accepts_nonword : forall c, accepts false (fun c => negb (is_word c)) c = true <-> ~ word_char c.
Proof. intros c. cbn. rewrite word_iff. destruct (is_word c); cbn; intuition congruence. Qed.
Definition begin_at (b : begin_) (before p s : text) : Prop :=
  match b with
  | BWord => p = [] /\ (starts before || boundary before s || nonword_next s = true)
  | BStart => before = [] /\ length p <= 2 /\ Forall (fun c => ~ word_char c) p
  | BNone => p = []
  | BCaret => before = [] /\ p = []
  end.
Lemma starts_iff b : starts b = true <-> b = [].
Proof. destruct b; cbn; intuition congruence. Qed.
Lemma begin_iff b before s n : In n (begin_ways b before s) <-> n <= length s /\ begin_at b before (firstn n s) (skipn n s).
Proof.
  assert (Z0 : firstn n s = [] /\ n <= length s <-> n = 0).
  { split; [|intros ->; split; [reflexivity|lia]]. intros [E L]. destruct n; [reflexivity|]. destruct s; cbn in *; [lia|discriminate]. }
  destruct b; cbn [begin_ways begin_at].
  - destruct (starts before || boundary before s || nonword_next s) eqn:E.
    + split.
      * intros [<-|[]]. cbn. auto with arith.
      * intros (L & F & _). left. symmetry. now apply Z0.
    + split; [intros []|]. intros (L & F & X). assert (n = 0) by now apply Z0. subst n. cbn in X. congruence.
  - destruct (starts before) eqn:E.
    + apply starts_iff in E as ->. rewrite lens_iff. cbn [lang]. split.
      * intros [L [[B A]|F]]; (split; [exact L|]); (split; [reflexivity|]).
        -- split; [lia|]. eapply Forall_impl; [|exact A]. intros c. apply accepts_nonword.
        -- rewrite F. split; [cbn; lia|constructor].
      * intros (L & _ & B & A). split; [exact L|]. left. split; [lia|]. eapply Forall_impl; [|exact A]. intros c. apply accepts_nonword.
    + split; [intros []|]. intros (_ & -> & _). discriminate.
  - cbn [In]. rewrite <- (Nat.eq_sym_iff n 0). rewrite <- Z0. tauto.
  - destruct (starts before) eqn:E.
    + apply starts_iff in E as ->. cbn [In]. rewrite <- (Nat.eq_sym_iff n 0). rewrite <- Z0. tauto.
    + split; [intros []|]. intros (_ & -> & _). discriminate.
Qed.
