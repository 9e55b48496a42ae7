(** Words, digits, years and offsets; which length is tried first. *)
From Coq Require Import ZifyBool ZifyNat.
From Verif Require Import Base Text Strptime_Model Strptime_Spec Template_Model Template_Spec Template_Proofs Template_Proofs2.
Local Open Scope string_scope. Local Open Scope list_scope. Local Open Scope nat_scope.

(** * Words, digits, years and offsets *)
Lemma accepts_digit ci c : accepts ci is_digit c = is_digit c.
Proof. apply eqb_true. revert c. destruct ci; apply (every_char (fun c => eqb (accepts _ is_digit c) (is_digit c))); vm_compute; reflexivity. Qed.
Lemma digits_lang ci lo hi s : lang ci (Run lo hi is_digit) s <-> some_digits lo hi s.
Proof.
  cbn [lang]. unfold some_digits, all_in. rewrite !Forall_forall. split; intros [L A]; (split; [exact L|]); intros c C; specialize (A c C); now rewrite accepts_digit in *.
Qed.
Lemma accepts_one ci c x : accepts ci (fun x => eqb x c) x = true <-> if ci then lower_char x = lower_char c else x = c.
Proof.
  destruct ci.
  - rewrite <- (eqb_eq (lower_char x)).
    assert (H : forall a b, eqb (accepts true (fun x => eqb x a) b) (eqb (lower_char b) (lower_char a)) = true)
      by (apply every_char2; vm_cast_no_check (eq_refl true)).
    specialize (H c x). apply eqb_true in H. now rewrite H.
  - cbn. apply eqb_eq.
Qed.
Lemma one_lang ci c s : lang ci (one c) s <-> exists x, s = [x] /\ if ci then lower_char x = lower_char c else x = c.
Proof. cbn [lang one]. split; intros (x & -> & H); exists x; (split; [reflexivity|]); now apply (accepts_one ci c x). Qed.
Lemma word_lang ci u : forall s, lang ci (word u) s <-> if ci then map lower_char s = map lower_char u else s = u.
Proof.
  induction u as [|c u IH]; intros s.
  - cbn [word lang]. destruct ci; [|reflexivity]. split; [now intros ->|]. destruct s; [reflexivity|discriminate].
  - assert (G : lang ci (word (c :: u)) s <-> exists x r, s = x :: r /\ (if ci then lower_char x = lower_char c else x = c) /\ lang ci (word u) r).
    { destruct u as [|d u].
      - cbn [word]. rewrite one_lang. split.
        + intros (x & -> & H). exists x, []. split; [reflexivity|]. split; [exact H|reflexivity].
        + intros (x & r & -> & H & E). cbn in E. subst r. eauto.
      - change (word (c :: d :: u)) with (Cat (one c) (word (d :: u))). cbn [lang]. split.
        + intros (p & q & -> & P & Q). apply one_lang in P as (x & -> & H). exists x, q. auto.
        + intros (x & r & -> & H & E). exists [x], r. split; [reflexivity|]. split; [|exact E]. apply one_lang. eauto. }
    rewrite G. split.
    + intros (x & r & -> & H & E). apply IH in E. destruct ci; cbn [map]; congruence.
    + destruct s as [|x r]; [destruct ci; discriminate|]. intros E. exists x, r. split; [reflexivity|].
      destruct ci; [cbn in E; injection E as E1 E2|injection E as E1 E2]; (split; [exact E1|]); now apply IH.
Qed.
Lemma any_lang ci l s : lang ci (any l) s <-> exists r, In r l /\ lang ci r s.
Proof.
  induction l as [|r l IH].
  - cbn [any lang]. split; [|now intros (r & [] & _)]. intros (c & _ & H). destruct ci; discriminate.
  - destruct l as [|r' l]; [cbn [any]; split; [eexists; split; [now left|eassumption]|now intros (x & [<-|[]] & H)]|].
    change (any (r :: r' :: l)) with (Alt r (any (r' :: l))). cbn [lang]. rewrite IH. split.
    + intros [H|(x & I & H)]; [exists r; split; [now left|exact H]|exists x; split; [now right|exact H]].
    + intros (x & [<-|I] & H); [now left|right; eauto].
Qed.
Lemma dec_year n : (1000 <= n <= 9999)%Z -> firstn 3 (dec n) = dec (n / 10) /\ dec n = dec (n / 10) ++ [digit_char (n mod 10)].
Proof.
  intros H. apply In_range in H.
  assert (F : forallb (fun n => eqb (firstn 3 (dec n)) (dec (n / 10)) && eqb (dec n) (dec (n / 10) ++ [digit_char (n mod 10)])) (range 1000 9999) = true)
    by (vm_cast_no_check (eq_refl true)).
  eapply forallb_forall in F; [|exact H]. apply andb_true_iff in F as [A B]. split; now apply eqb_true.
Qed.
Lemma digit_is d : is_digit d = true -> exists k, (0 <= k < 10)%Z /\ d = digit_char k.
Proof.
  intros H.
  assert (F : forall c, negb (is_digit c) || existsb (fun k => eqb c (digit_char k)) (range 0 9) = true) by (apply every_char; vm_compute; reflexivity).
  specialize (F d). rewrite H in F. cbn [negb orb] in F. apply existsb_exists in F as (k & K & E). apply In_range in K. apply eqb_true in E. exists k. split; [lia|exact E].
Qed.
Lemma digit_char_digit k : (0 <= k < 10)%Z -> is_digit (digit_char k) = true.
Proof. intros H. unfold is_digit. rewrite char_code_digit by lia. destruct (Z.ltb_spec k 10); lia. Qed.
Lemma decades_are y p : started y -> In p (decades y) <-> exists n, (200 <= n <= (y + 3) / 10)%Z /\ p = dec n.
Proof.
  unfold started. intros Y. unfold decades. rewrite in_map_iff.
  assert (YQ : (10 * ((y + 3) / 10) <= y + 3 < 10 * ((y + 3) / 10) + 10)%Z) by (pose proof (Z.div_mod (y + 3) 10 ltac:(lia)); pose proof (Z.mod_pos_bound (y + 3) 10 ltac:(lia)); lia).
  split.
  - intros (n & <- & I).
    assert (R : (2000 <= n <= y + 3)%Z).
    { apply in_app_iff in I as [[<-|[<-|[]]]|I]; [lia|lia|]. apply in_map_iff in I as (i & <- & I). apply in_seq in I.
      pose proof (Z.div_mod (y - 2000 + 3) 3 ltac:(lia)). pose proof (Z.mod_pos_bound (y - 2000 + 3) 3 ltac:(lia)). lia. }
    exists (n / 10)%Z. split; [|apply dec_year; lia]. split; [apply (Z.div_le_mono 2000 n 10); lia|apply Z.div_le_mono; lia].
  - intros (n & R & ->).
    assert (X : exists m, (10 * n <= m < 10 * n + 10)%Z /\ (m <= 9999)%Z /\ (m = y - 1 \/ m = y + 3 \/ exists i, m = 2000 + 3 * i /\ 0 <= i /\ 2000 + 3 * i <= y)%Z).
    { destruct (Z.le_gt_cases (10 * n + 9) y) as [L|G].
      - exists (2000 + 3 * ((10 * n - 2000 + 2) / 3))%Z. pose proof (Z.div_mod (10 * n - 2000 + 2) 3 ltac:(lia)). pose proof (Z.mod_pos_bound (10 * n - 2000 + 2) 3 ltac:(lia)).
        split; [lia|]. split; [lia|]. right. right. exists ((10 * n - 2000 + 2) / 3)%Z. lia.
      - destruct (Z.le_gt_cases (10 * n) (y - 1)).
        + exists (y - 1)%Z. lia.
        + exists (y + 3)%Z. lia. }
    destruct X as (m & M & M9 & H). exists m. split.
    + destruct (dec_year m ltac:(lia)) as [-> _]. f_equal. symmetry. apply (Z.div_unique m 10 n (m - 10 * n)); lia.
    + apply in_app_iff. destruct H as [->|[->|(i & -> & I & L)]]; [left; now left|left; right; now left|]. right. apply in_map_iff. exists (Z.to_nat i).
      split; [lia|]. apply in_seq. pose proof (Z.div_mod (y - 2000 + 3) 3 ltac:(lia)). pose proof (Z.mod_pos_bound (y - 2000 + 3) 3 ltac:(lia)). lia.
Qed.
Lemma lower_digits u : Forall (fun c => is_digit c = true) u -> forall s, map lower_char s = map lower_char u -> s = u.
Proof.
  intros F. induction F as [|c u D F IH]; intros s E; destruct s as [|x s]; try discriminate; [reflexivity|]. cbn in E. injection E as E1 E2.
  f_equal; [|now apply IH].
  assert (H : forall a b, negb (is_digit a) || negb (eqb (lower_char b) (lower_char a)) || eqb b a = true) by (apply every_char2; vm_cast_no_check (eq_refl true)).
  specialize (H c x). rewrite D, E1, eqb_refl in H. cbn in H. now apply eqb_true.
Qed.
Lemma dec_is_digits n : (0 <= n)%Z -> Forall (fun c => is_digit c = true) (dec n).
Proof.
  intros H. unfold dec, show. apply Forall_forall. intros c C. apply in_map_iff in C as (d & <- & I). apply digit_char_digit.
  pose proof (digits_range 10 n ltac:(lia) H) as F. rewrite Forall_forall in F. exact (F d I).
Qed.
Lemma ExY_lang y ci s : started y -> lang ci (token_re y ExY) s <-> near_year y s.
Proof.
  intros Y. cbn [token_re]. cbn [lang]. unfold near_year, number. unfold started in Y.
  assert (YQ : (10 * ((y + 3) / 10) <= y + 3 < 10 * ((y + 3) / 10) + 10)%Z) by (pose proof (Z.div_mod (y + 3) 10 ltac:(lia)); pose proof (Z.mod_pos_bound (y + 3) 10 ltac:(lia)); lia).
  split.
  - intros (p & q & -> & P & c & -> & A). rewrite accepts_digit in A. apply any_lang in P as (r & I & L).
    apply in_map_iff in I as (u & <- & U). apply decades_are in U as (n & R & ->); [|exact Y]. apply word_lang in L.
    assert (p = dec n) as -> by (destruct ci; [eapply lower_digits; [apply dec_is_digits; lia|exact L]|exact L]).
    destruct (digit_is c A) as (k & K & ->). exists (10 * n + k)%Z, dec. split; [lia|]. split; [now left|].
    destruct (dec_year (10 * n + k)%Z ltac:(lia)) as [_ E]. rewrite E.
    replace ((10 * n + k) / 10)%Z with n by (apply (Z.div_unique _ 10 n k); lia).
    replace ((10 * n + k) mod 10)%Z with k by (apply (Z.mod_unique _ 10 n k); lia). reflexivity.
  - intros (n & st & R & [<-|[]] & ->). destruct (dec_year n ltac:(lia)) as [_ E]. exists (dec (n / 10)), [digit_char (n mod 10)].
    split; [exact E|]. split.
    + apply any_lang. exists (word (dec (n / 10))). split; [|apply word_lang; now destruct ci]. apply in_map. apply decades_are; [exact Y|].
      exists (n / 10)%Z. split; [|reflexivity]. split; [apply (Z.div_le_mono 2000 n 10); lia|].
      apply Z.lt_succ_r. apply Z.div_lt_upper_bound; lia.
    + exists (digit_char (n mod 10)). split; [reflexivity|]. rewrite accepts_digit. apply digit_char_digit. apply Z.mod_pos_bound. lia.
Qed.
Lemma accepts_sign ci c : accepts ci (fun c => eqb c "+"%char || eqb c "-"%char) c = true <-> In c ["+"%char; "-"%char].
Proof.
  rewrite <- inb_In. match goal with |- ?a = true <-> ?b = true => assert (H : eqb a b = true) end.
  { revert c. destruct ci; apply every_char; vm_compute; reflexivity. }
  apply eqb_true in H. now rewrite H.
Qed.
Lemma accepts_01 ci c : accepts ci (fun c => (48 + 0 <=? char_code c) && (char_code c <=? 48 + 1))%Z c = true <-> In c ["0"%char; "1"%char].
Proof.
  rewrite <- inb_In. match goal with |- ?a = true <-> ?b = true => assert (H : eqb a b = true) end.
  { revert c. destruct ci; apply every_char; vm_compute; reflexivity. }
  apply eqb_true in H. now rewrite H.
Qed.
Lemma accepts_colon ci c : accepts ci (fun c => eqb c ":"%char) c = true <-> c = ":"%char.
Proof.
  rewrite <- (eqb_eq c ":"%char). match goal with |- ?a = true <-> ?b = true => assert (H : eqb a b = true) end.
  { revert c. destruct ci; apply every_char; vm_compute; reflexivity. }
  apply eqb_true in H. now rewrite H.
Qed.
Lemma Tz_lang y ci s : lang ci (token_re y Tz) s <-> offset_text ci s.
Proof.
  cbn [token_re]. rewrite any_lang. unfold offset_text. split.
  - intros (r & I & H). destruct I as [<-|[<-|[<-|[<-|[]]]]].
    + left. exists "Z". split; [cbn; auto|]. now apply word_lang in H.
    + left. exists "UTC". split; [cbn; auto|]. now apply word_lang in H.
    + left. exists "GMT". split; [cbn; auto|]. now apply word_lang in H.
    + right. cbn [seq_ lang] in H. unfold R, D in H. cbn [lang] in H.
      destruct H as (u & v & -> & (sg & -> & SG) & u1 & v1 & -> & (h1 & -> & H1) & u2 & m & -> & (h2 & -> & H2) & M).
      apply accepts_sign in SG. apply accepts_01 in H1. rewrite accepts_digit in H2. exists sg, h1, h2, m. split; [reflexivity|]. split; [exact SG|]. split; [exact H1|].
      split; [exact H2|]. destruct M as [(o & d & -> & O & DD)| ->]; [|now left]. right. apply (digits_lang ci 2 2) in DD.
      destruct O as [O| ->]; [|now left]. right. unfold one in O. cbn [lang] in O. destruct O as (c & -> & C). apply accepts_colon in C as ->. exists d. auto.
  - intros [(a & I & H)|(sg & h1 & h2 & m & -> & SG & H1 & H2 & M)].
    + exists (word (tx a)). split; [|now apply word_lang]. destruct I as [<-|[<-|[<-|[]]]]; cbn; auto.
    + eexists. split; [right; right; right; left; reflexivity|]. cbn [seq_ lang]. unfold R, D. cbn [lang].
      exists [sg], (h1 :: h2 :: m). split; [reflexivity|]. split; [exists sg; split; [reflexivity|now apply accepts_sign]|].
      exists [h1], (h2 :: m). split; [reflexivity|]. split; [exists h1; split; [reflexivity|now apply accepts_01]|].
      exists [h2], m. split; [reflexivity|]. split; [exists h2; split; [reflexivity|now rewrite accepts_digit]|].
      destruct M as [->|[M|(m' & -> & M)]]; [now right| |].
      * left. exists [], m. split; [reflexivity|]. split; [now right|]. now apply (digits_lang ci 2 2).
      * left. exists [":"%char], m'. split; [reflexivity|]. split; [|now apply (digits_lang ci 2 2)]. left. unfold one. cbn [lang]. exists ":"%char.
        split; [reflexivity|]. now apply accepts_colon.
Qed.
Lemma field_iff y ci t s : started y -> lang ci (token_re y t) s <-> field_text y ci t s.
Proof.
  intros Y. destruct (texts ci t) as [l|] eqn:E; [now apply (field_listed y ci t l)|].
  destruct t; try discriminate E.
  - apply digits_lang.
  - apply digits_lang.
  - apply Tz_lang.
  - now apply ExY_lang.
Qed.
