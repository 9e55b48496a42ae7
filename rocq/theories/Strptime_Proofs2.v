(** Numbers, names and time zones in a text. *)
From Verif Require Import Base Text Strptime_Model Strptime_Spec.
From Coq Require Import ZifyBool ZifyNat.
Local Open Scope list_scope. Local Open Scope Z_scope.

(** ** Numbers *)
Lemma digit_inv c : is_digit c = true -> exists d, 0 <= d < 10 /\ c = digit_char d.
Proof.
  unfold is_digit, char_code. intros H. exists (Z.of_N (N_of_ascii c) - 48).
  apply andb_true_iff in H as [A B]. apply Z.leb_le in A, B. split; [lia |].
  unfold digit_char. destruct (_ <? 10) eqn:E; [| lia].
  replace (Z.to_N (48 + (Z.of_N (N_of_ascii c) - 48))) with (N_of_ascii c) by lia. now rewrite ascii_N_embedding.
Qed.
Lemma digit_is d : 0 <= d < 10 -> is_digit (digit_char d) = true.
Proof.
  intros H. unfold is_digit. rewrite char_code_digit by lia. destruct (d <? 10) eqn:E; lia.
Qed.
Lemma blank_digit d : 0 <= d < 10 -> is_blank (digit_char d) = false.
Proof. intros H. unfold is_blank. rewrite char_code_digit by lia. destruct (d <? 10) eqn:E; lia. Qed.
Lemma digit_not_sign d : 0 <= d < 10 -> digit_char d <> "-"%char /\ digit_char d <> "+"%char /\ digit_char d <> ":"%char.
Proof.
  intros H. repeat split; intros E; apply (f_equal char_code) in E; rewrite char_code_digit in E by lia;
    match type of E with _ = ?r => let q := eval vm_compute in r in change r with q in E end;
    destruct (d <? 10) eqn:F; lia.
Qed.
Lemma lstrip_blank i s : lstrip (repeat " "%char i ++ s) = lstrip s.
Proof. induction i; [reflexivity | exact IHi]. Qed.
Lemma lstrip_stay c s : is_blank c = false -> lstrip (c :: s) = c :: s.
Proof. intros H. cbn [lstrip]. now rewrite H. Qed.
Lemma read_digits_app b s t l k : read_digits b s = Some l -> read_digits b t = Some k -> read_digits b (s ++ t) = Some (l ++ k).
Proof.
  revert l. induction s as [| c s IH]; intros l A B; cbn [read_digits app] in *.
  - injection A as <-. exact B.
  - destruct (digit_val c) as [d |]; [| discriminate]. destruct (read_digits b s) as [r |]; [| discriminate].
    rewrite (IH r eq_refl B). destruct (d <? b); [| discriminate]. injection A as <-. reflexivity.
Qed.
Lemma read_digits_zeros j : read_digits 10 (repeat "0"%char j) = Some (repeat 0 j).
Proof. induction j; cbn [repeat read_digits]; [reflexivity |]. now rewrite IHj. Qed.
Lemma value_zeros b j l : value b (repeat 0 j ++ l) = value b l.
Proof. unfold value. rewrite fold_left_app. f_equal. induction j; [reflexivity | exact IHj]. Qed.
Lemma dec_digits n : 0 <= n -> exists l, dec n = map digit_char l /\ l <> [] /\ Forall (fun d => 0 <= d < 10) l
  /\ value 10 l = n.
Proof.
  intros H. exists (digits 10 n). repeat split; [apply digits_nonempty | apply digits_range; lia | apply digits_value; lia].
Qed.
Lemma strip_digits l : l <> [] -> Forall (fun d => 0 <= d < 10) l -> forall i,
  rev (lstrip (rev (lstrip (repeat " "%char i ++ map digit_char l)))) = map digit_char l.
Proof.
  intros N F i. rewrite lstrip_blank.
  assert (A : lstrip (map digit_char l) = map digit_char l).
  { destruct l as [| d l]; [easy |]. inversion F; subst. cbn [map]. apply lstrip_stay. now apply blank_digit. }
  rewrite A, <- map_rev.
  assert (B : lstrip (map digit_char (rev l)) = map digit_char (rev l)).
  { destruct (rev l) as [| d r] eqn:E; [apply (f_equal (@rev Z)) in E; rewrite rev_involutive in E; now subst |].
    cbn [map]. apply lstrip_stay. apply blank_digit. rewrite Forall_forall in F. apply F. rewrite in_rev, E. now left. }
  rewrite B, map_rev, rev_involutive. reflexivity.
Qed.
Lemma py_int_digits l i : l <> [] -> Forall (fun d => 0 <= d < 10) l ->
  py_int (repeat " "%char i ++ map digit_char l) = Ok (value 10 l).
Proof.
  intros N F. unfold py_int. rewrite strip_digits by assumption.
  destruct l as [| d l]; [easy |].
  pose proof (read_digits_show 10 (d :: l) ltac:(lia) F) as R.
  assert (RR : read 10 (map digit_char (d :: l)) = Some (value 10 (d :: l))).
  { unfold read. cbn [map] in R |- *. rewrite R. reflexivity. }
  inversion F; subst. destruct (digit_not_sign d H1) as (X & Y & _).
  cbn [map] in RR |- *. destruct (digit_char d) as [[] [] [] [] [] [] [] []]; try (rewrite RR; reflexivity); congruence.
Qed.
Lemma zeros_chars j : repeat "0"%char j = map digit_char (repeat 0 j).
Proof. induction j; cbn; [reflexivity | now rewrite IHj]. Qed.
Lemma py_int_numeral t n : numeral t n -> py_int t = Ok n.
Proof.
  intros (P & i & j & ->). destruct (dec_digits n P) as (l & -> & N & F & V).
  rewrite zeros_chars, <- map_app, py_int_digits.
  - now rewrite value_zeros, V.
  - destruct l; [easy |]. intros E. apply app_eq_nil in E as [_ E]. discriminate.
  - apply Forall_app. split; [| exact F]. clear. induction j; cbn; constructor; [lia | exact IHj].
Qed.

(** ** Names *)
Lemma lower_same t u : same_letters t u -> lower u = u -> lower t = u.
Proof.
  unfold same_letters, lower. induction 1 as [| a b t u H _ IH]; intros E; [reflexivity |].
  cbn [map] in *. injection E as E1 E2. f_equal; [| now apply IH].
  destruct H as [-> | [H R]]; [exact E1 |]. unfold lower_char. destruct (_ && _) eqn:C; [| lia].
  apply (f_equal ascii_of_N) in H || idtac. unfold char_code in *.
  replace (Z.to_N (Z.of_N (N_of_ascii a) + 32)) with (N_of_ascii b) by lia. apply ascii_N_embedding.
Qed.
Lemma index_month (full : bool) t n a b : In (n, a, b) month_names -> same_letters t (tx (if full then a else b)) ->
  index_of (lower t) (if full then f_month else a_month) 0 = Ok n.
Proof.
  intros H S. cbn [month_names In] in H.
  repeat (destruct H as [H | H]; [injection H as <- <- <-; destruct full; rewrite (lower_same _ _ S eq_refl); reflexivity |]).
  easy.
Qed.
Lemma index_day (full : bool) t n a b : In (n, a, b) day_names -> same_letters t (tx (if full then a else b)) ->
  index_of (lower t) (if full then f_weekday else a_weekday) 0 = Ok n.
Proof.
  intros H S. cbn [day_names In] in H.
  repeat (destruct H as [H | H]; [injection H as <- <- <-; destruct full; rewrite (lower_same _ _ S eq_refl); reflexivity |]).
  easy.
Qed.

(** ** Zones *)
Definition abbr_shape (a : text) : bool :=
  let n := length a in ((n =? 1)%nat || ((3 <=? n)%nat && (n <=? 5)%nat)) && forallb is_upper a.
Lemma names_table : forallb (fun p => abbr_shape (tx (fst p)) && eqb (dget (tx (fst p)) tz_abbr) (Some (snd p))) zone_names = true.
Proof. vm_compute. reflexivity. Qed.
Lemma table_names : forallb (fun p => negb (abbr_shape (fst p)) || existsb (fun q => eqb (tx (fst q)) (fst p) && (snd q =? snd p)) zone_names) tz_abbr = true.
Proof. vm_compute. reflexivity. Qed.
Lemma abbreviation_iff a k : abbreviation a k <-> abbr_shape a = true /\ dget a tz_abbr = Some k.
Proof.
  split.
  - intros (s & I & ->). pose proof names_table as H. rewrite forallb_forall in H. specialize (H _ I).
    apply andb_true_iff in H as [A B]. apply eqb_true in B. exact (conj A B).
  - intros [A D]. apply dget_In in D. pose proof table_names as H. rewrite forallb_forall in H. specialize (H _ D).
    cbn [fst snd] in H. rewrite A in H. cbn [negb orb] in H. apply existsb_exists in H as ([s o] & I & H).
    cbn [fst snd] in H. apply andb_true_iff in H as [E F]. apply eqb_true in E. apply Z.eqb_eq in F. subst.
    exists s. split; [exact I | reflexivity].
Qed.

Lemma upper_run_app a t : forallb is_upper a = true -> match t with c :: _ => is_upper c = false | [] => True end ->
  upper_run (a ++ t) = a.
Proof.
  induction a as [| c a IH]; intros A T; cbn [upper_run app].
  - destruct t as [| c t]; [reflexivity |]. cbn. now rewrite T.
  - cbn [forallb] in A. apply andb_true_iff in A as [A1 A2]. rewrite A1. f_equal. now apply IH.
Qed.
Lemma upper_run_split s : exists t, s = upper_run s ++ t /\ forallb is_upper (upper_run s) = true.
Proof.
  induction s as [| c s (t & E & F)]; [now exists [] |]. cbn [upper_run]. destruct (is_upper c) eqn:U.
  - exists t. cbn [app forallb]. rewrite <- E, U, F. auto.
  - exists (c :: s). auto.
Qed.
Lemma at_end_iff s : at_end s = true <-> s = [] \/ s = [newline].
Proof.
  unfold at_end. destruct s as [| c [| d s]].
  - split; auto.
  - rewrite eqb_eq. split; [intros ->; auto | intros [H | H]; [discriminate | congruence]].
  - split; [discriminate | intros [H | H]; discriminate].
Qed.
Lemma two_digits_py n : 0 <= n < 100 -> py_int (two_digits n) = Ok n.
Proof.
  intros H. unfold two_digits. change [digit_char (n / 10); digit_char (n mod 10)] with (repeat " "%char 0 ++ map digit_char [n / 10; n mod 10]).
  rewrite py_int_digits; [| discriminate | repeat constructor; Z.to_euclidean_division_equations; lia].
  f_equal. unfold value. cbn [fold_left]. Z.to_euclidean_division_equations; lia.
Qed.
Lemma signed_all : forallb (fun k => let n := Z.of_nat k in
    eqb (match py_int ("+"%char :: two_digits n) with Ok m => Some m | Err _ => None end) (Some n)
    && eqb (match py_int ("-"%char :: two_digits n) with Ok m => Some m | Err _ => None end) (Some (- n))) (seq 0 20) = true.
Proof. vm_compute. reflexivity. Qed.
Lemma signed_py n : 0 <= n < 20 -> py_int ("+"%char :: two_digits n) = Ok n /\ py_int ("-"%char :: two_digits n) = Ok (- n).
Proof.
  intros R. pose proof signed_all as H. rewrite forallb_forall in H. specialize (H (Z.to_nat n)).
  rewrite in_seq in H. specialize (H ltac:(lia)). rewrite Z2Nat.id in H by lia.
  apply andb_true_iff in H as [A B]. apply eqb_true in A, B.
  destruct (py_int ("+"%char :: _)); [| discriminate]. destruct (py_int ("-"%char :: _)); [| discriminate].
  split; congruence.
Qed.
(** the signed offset of the second group *)
Definition signed (t : text) (n : Z) : Prop := exists sp k, span sp k /\ ((t = "+"%char :: sp /\ n = k) \/ (t = "-"%char :: sp /\ n = - k)).
Lemma zone_signed a t n : signed t n -> zone_of_groups a (Some t) = bind (abbr_offs a) (fun k => Ok (k + n)).
Proof.
  intros (sp & k & S & E). unfold zone_of_groups.
  destruct S as [h H | h m H M | h m H M].
  - destruct (signed_py h H) as [P Q].
    destruct E as [[-> ->] | [-> ->]]; cbn [length two_digits Nat.eqb Nat.leb]; rewrite ?P, ?Q;
      destruct (abbr_offs a); cbn [bind]; try reflexivity; f_equal; lia.
  - pose proof (two_digits_py h ltac:(lia)) as P. pose proof (two_digits_py m ltac:(lia)) as Q.
    assert (NE : eqb (digit_char (m / 10)) ":"%char = false) by
      (apply eqb_neq; apply (digit_not_sign (m / 10)); Z.to_euclidean_division_equations; lia).
    unfold two_digits in *.
    destruct E as [[-> ->] | [-> ->]]; cbn [length app Nat.eqb Nat.leb firstn skipn nth]; cbv zeta; rewrite NE; cbn [negb];
      rewrite P, Q; [change (eqb "+"%char "-"%char) with false | change (eqb "-"%char "-"%char) with true];
      destruct (abbr_offs a); cbn [bind]; try reflexivity; f_equal; lia.
  - pose proof (two_digits_py h ltac:(lia)) as P. pose proof (two_digits_py m ltac:(lia)) as Q.
    unfold two_digits in *.
    destruct E as [[-> ->] | [-> ->]]; cbn [length app Nat.eqb Nat.leb firstn skipn nth]; cbv zeta;
      change (eqb ":"%char ":"%char) with true; cbn [negb];
      rewrite P, Q; [change (eqb "+"%char "-"%char) with false | change (eqb "-"%char "-"%char) with true];
      destruct (abbr_offs a); cbn [bind]; try reflexivity; f_equal; lia.
Qed.
Lemma hour_digit h : 0 <= h < 20 -> inb (digit_char (h / 10)) ["0"; "1"]%char = true.
Proof.
  intros H. assert (E : h / 10 = 0 \/ h / 10 = 1) by (Z.to_euclidean_division_equations; lia).
  destruct E as [-> | ->]; reflexivity.
Qed.
Lemma two_digit_ok n : 0 <= n < 100 -> is_digit (digit_char (n / 10)) = true /\ is_digit (digit_char (n mod 10)) = true.
Proof. intros H. split; apply digit_is; Z.to_euclidean_division_equations; lia. Qed.
Lemma two_digits_of a b : 0 <= a < 10 -> 0 <= b < 10 -> [digit_char a; digit_char b] = two_digits (10 * a + b).
Proof.
  intros A B. unfold two_digits. replace ((10 * a + b) / 10) with a by (Z.to_euclidean_division_equations; lia).
  replace ((10 * a + b) mod 10) with b by (Z.to_euclidean_division_equations; lia). reflexivity.
Qed.
Lemma offs_group_none e : e = [] \/ e = [newline] -> tz_offs_group e = Some None.
Proof. intros [-> | ->]; reflexivity. Qed.
Lemma offs_group_signed t n e : signed t n -> e = [] \/ e = [newline] -> tz_offs_group (t ++ e) = Some (Some t).
Proof.
  intros (sp & k & S & E) EE.
  assert (SG : exists sg, inb sg ["+"; "-"]%char = true /\ t = sg :: sp).
  { destruct E as [[-> _] | [-> _]]; [exists "+"%char | exists "-"%char]; split; reflexivity. }
  destruct SG as (sg & SG & ->). clear E. apply at_end_iff in EE.
  assert (NE : forall x y s, at_end (x :: y :: s) = false) by reflexivity.
  destruct S as [h H | h m H M | h m H M]; unfold tz_offs_group, two_digits; cbn [app];
    rewrite NE, SG, (hour_digit h H), (proj2 (two_digit_ok h ltac:(lia))); cbn [andb].
  - now rewrite EE.
  - destruct (two_digit_ok m M) as [D1 D2]. rewrite NE, D1, D2.
    assert (NC : eqb (digit_char (m / 10)) ":"%char = false) by
        (apply eqb_neq; apply (digit_not_sign (m / 10)); Z.to_euclidean_division_equations; lia).
    rewrite NC. cbn [andb]. apply at_end_iff in EE as [-> | ->]; reflexivity.
  - destruct (two_digit_ok m M) as [D1 D2]. rewrite NE, D1, D2, EE. reflexivity.
Qed.
Lemma offs_group_inv s g : tz_offs_group s = Some g -> exists e, (e = [] \/ e = [newline]) /\
  match g with None => s = e | Some t => s = t ++ e /\ exists n, signed t n end.
Proof.
  unfold tz_offs_group. destruct (at_end s) eqn:E0.
  { intros [= <-]. exists s. split; [now apply at_end_iff | reflexivity]. }
  destruct s as [| sg [| h1 [| h2 r]]]; try discriminate.
  destruct (_ && _ && _) eqn:C; [| discriminate]. apply andb_true_iff in C as [C D2]. apply andb_true_iff in C as [SG D1].
  apply digit_inv in D2 as (b & B & ->).
  assert (A : exists a, 0 <= a < 2 /\ h1 = digit_char a).
  { apply inb_In in D1. destruct D1 as [<- | [<- | []]]; [exists 0 | exists 1]; split; try lia; reflexivity. }
  destruct A as (a & A & ->).
  assert (SS : forall sp k, span sp k -> exists n, signed (sg :: sp) n).
  { intros sp k S. apply inb_In in SG. destruct SG as [<- | [<- | []]]; [exists k | exists (- k)]; exists sp, k; auto. }
  pose proof (two_digits_of a b ltac:(lia) B) as TD.
  destruct (at_end r) eqn:E1.
  { intros [= <-]. exists r. split; [now apply at_end_iff |]. split; [reflexivity |]. rewrite TD.
    eapply SS. constructor. lia. }
  destruct r as [| x [| y [| z r]]]; try discriminate.
  - destruct (is_digit x && is_digit y) eqn:C; [| discriminate]. apply andb_true_iff in C as [X Y].
    apply digit_inv in X as (m1 & M1 & ->), Y as (m2 & M2 & ->). intros [= <-]. exists []. split; [auto |].
    split; [reflexivity |]. change [digit_char a; digit_char b; digit_char m1; digit_char m2]
      with ([digit_char a; digit_char b] ++ [digit_char m1; digit_char m2]).
    rewrite TD, (two_digits_of m1 m2) by lia. eapply SS. constructor; lia.
  - destruct (_ && _ && _ && _) eqn:C.
    + repeat (apply andb_true_iff in C as [C ?]). apply eqb_true in C. subst x.
      apply digit_inv in H0 as (m2 & M2 & ->), H1 as (m1 & M1 & ->). intros [= <-]. exists r.
      split; [now apply at_end_iff |]. split; [reflexivity |].
      change [digit_char a; digit_char b; ":"%char; digit_char m1; digit_char m2]
        with ([digit_char a; digit_char b] ++ ":"%char :: [digit_char m1; digit_char m2]).
      rewrite TD, (two_digits_of m1 m2) by lia. eapply SS. constructor; lia.
    + clear C. destruct (is_digit x && is_digit y && _) eqn:C; [| discriminate].
      apply andb_true_iff in C as [C E2]. apply andb_true_iff in C as [X Y].
      apply digit_inv in X as (m1 & M1 & ->), Y as (m2 & M2 & ->). intros [= <-]. exists (z :: r).
      split; [now apply at_end_iff |]. split; [reflexivity |].
      change [digit_char a; digit_char b; digit_char m1; digit_char m2]
        with ([digit_char a; digit_char b] ++ [digit_char m1; digit_char m2]).
      rewrite TD, (two_digits_of m1 m2) by lia. eapply SS. constructor; lia.
Qed.
Lemma offset_cases t n : offset t n <-> (t = [] /\ n = 0) \/ signed t n.
Proof.
  split.
  - intros [| sp k S | sp k S]; [auto | right; exists sp, k; auto | right; exists sp, k; auto].
  - intros [[-> ->] | (sp & k & S & [[-> ->] | [-> ->]])]; constructor; exact S.
Qed.
Lemma zone_cases t n : zone t n <-> exists a k o m, t = a ++ o /\ n = k + m /\ offset o m /\
  ((a = [] /\ k = 0) \/ abbreviation a k).
Proof.
  split.
  - intros [o m O | a k o m A O].
    + exists [], 0, o, m. repeat split; auto.
    + exists a, k, o, m. repeat split; auto.
  - intros (a & k & o & m & -> & -> & O & [[-> ->] | A]); [now constructor | now constructor].
Qed.
Lemma shape_len a : abbr_shape a = true -> forallb is_upper a = true /\
  ((length a =? 0)%nat || (length a =? 1)%nat || ((3 <=? length a)%nat && (length a <=? 5)%nat)) = true /\ (length a =? 0)%nat = false.
Proof. unfold abbr_shape. intros H. apply andb_true_iff in H as [A B]. repeat split; [exact B | lia | lia]. Qed.
Lemma tail_not_upper o m e : offset o m -> e = [] \/ e = [newline] -> match o ++ e with c :: _ => is_upper c = false | [] => True end.
Proof. intros O E. destruct O; [destruct E as [-> | ->]; [exact I | reflexivity] | reflexivity | reflexivity]. Qed.
Lemma group_of_offset o m e : offset o m -> e = [] \/ e = [newline] ->
  tz_offs_group (o ++ e) = Some (if eqb o [] then None else Some o).
Proof.
  intros O E. pose proof O as OO. apply offset_cases in OO as [[-> _] | S]; [now apply offs_group_none |].
  rewrite (offs_group_signed _ _ _ S E). destruct S as (sp & k & _ & [[-> _] | [-> _]]); reflexivity.
Qed.
Lemma groups_value a k o m : offset o m -> abbr_offs a = Ok k -> zone_of_groups a (if eqb o [] then None else Some o) = Ok (k + m).
Proof.
  intros O A. apply offset_cases in O as [[-> ->] | S].
  - rewrite (eqb_refl (K:=text)). cbn [zone_of_groups]. rewrite A. f_equal. lia.
  - assert (E : eqb o [] = false) by (destruct S as (sp & j & _ & [[-> _] | [-> _]]); reflexivity).
    rewrite E, (zone_signed _ _ _ S), A. reflexivity.
Qed.
Theorem validate_iff s n : validate_tz s = Ok n <-> exists t, zone t n /\ (s = t \/ s = t ++ [newline]).
Proof.
  unfold validate_tz, tz_groups. split.
  - destruct (upper_run_split s) as (t & ES & U). remember (upper_run s) as a eqn:EA. clear EA.
    destruct (_ || _ || _) eqn:LEN; [| discriminate].
    rewrite ES at 1. rewrite skipn_app, skipn_all, Nat.sub_diag. cbn [skipn app].
    destruct (tz_offs_group t) as [g |] eqn:G; [| discriminate]. apply offs_group_inv in G as (e & E & G).
    intros H.
    assert (K : exists k, abbr_offs (if (length a =? 0)%nat then None else Some a) = Ok k /\ ((a = [] /\ k = 0) \/ abbreviation a k)).
    { destruct (length a =? 0)%nat eqn:L0.
      - destruct a; [| discriminate]. exists 0. auto.
      - assert (KK : exists k, abbr_offs (Some a) = Ok k).
        { destruct g as [o |]; [destruct G as (_ & m & SG); rewrite (zone_signed _ _ _ SG) in H | cbn [zone_of_groups] in H; eauto].
          destruct (abbr_offs (Some a)); [eauto | discriminate]. }
        destruct KK as (k & KK). exists k. split; [exact KK |]. right. apply abbreviation_iff.
        cbn [abbr_offs] in KK. destruct (dget a tz_abbr) as [k' |]; [| destruct (eqb a []) eqn:EA; [apply eqb_true in EA; subst; discriminate | discriminate]].
        injection KK as ->. split; [| reflexivity]. unfold abbr_shape. rewrite U. lia. }
    destruct K as (k & K & A).
    destruct g as [o |].
    + destruct G as (-> & m & SG). rewrite (zone_signed _ _ _ SG), K in H. cbn [bind] in H. injection H as <-.
      exists (a ++ o). split.
      * apply zone_cases. exists a, k, o, m. repeat split; [apply offset_cases; auto | exact A].
      * rewrite <- app_assoc. destruct E as [-> | ->]; rewrite ?app_nil_r in *; auto.
    + cbn [zone_of_groups] in H. rewrite K in H. injection H as <-. subst t. exists a. split.
      * apply zone_cases. exists a, k, [], 0. rewrite app_nil_r. repeat split; [lia | constructor | exact A].
      * destruct E as [-> | ->]; [rewrite app_nil_r in ES; auto | auto].
  - intros (t & ZN & E). apply zone_cases in ZN as (a & k & o & m & -> & -> & O & A).
    assert (EE : exists e, s = a ++ o ++ e /\ (e = [] \/ e = [newline])).
    { destruct E as [-> | ->]; [exists [] | exists [newline]]; rewrite ?app_nil_r, <- ?app_assoc; auto. }
    destruct EE as (e & -> & EE). pose proof (tail_not_upper _ _ _ O EE) as TU.
    assert (U : forallb is_upper a = true /\
       ((length a =? 0)%nat || (length a =? 1)%nat || ((3 <=? length a)%nat && (length a <=? 5)%nat)) = true /\
       abbr_offs (if (length a =? 0)%nat then None else Some a) = Ok k).
    { destruct A as [[-> ->] | A]; [repeat split |]. apply abbreviation_iff in A as [SH D].
      destruct (shape_len a SH) as (U & L & L0). repeat split; [exact U | exact L |]. rewrite L0. cbn [abbr_offs]. now rewrite D. }
    destruct U as (U & L & AO). rewrite (upper_run_app a _ U TU), L.
    rewrite skipn_app, skipn_all, Nat.sub_diag. cbn [skipn app].
    rewrite (group_of_offset _ _ _ O EE). now apply groups_value.
Qed.
Lemma validate_zone t n : zone t n -> validate_tz t = Ok n.
Proof. intros H. apply validate_iff. eauto. Qed.
