(** Proofs about addresses: regular expressions, construction, networks, sets. *)
From Verif Require Import Base Text Regex IPAddr_Model IPAddr_Spec IPAddr_Proofs.
From Coq Require Import ZifyBool ZifyNat.

(** ** ranges of what is read *)
Lemma read_range b s v : 1 < b -> read b s = Some v -> 0 <= v < b ^ Z.of_nat (length s).
Proof.
  intros B. unfold read. destruct s as [|c r]; [discriminate|]. destruct (read_digits b (c :: r)) as [l|] eqn:E; [|discriminate].
  cbn [option_map]. intros X. injection X as <-.
  assert (P : forall s l, read_digits b s = Some l -> length l = length s /\ Forall (fun d => 0 <= d < b) l).
  { induction s as [|x s IH]; intros m; cbn; [intros X; injection X as <-; auto|].
    destruct (digit_val x) as [d|] eqn:D; [|discriminate]. destruct (read_digits b s) as [y|]; [|discriminate].
    destruct (Z.ltb_spec d b); [|discriminate]. intros X. injection X as <-. destruct (IH y eq_refl) as [L F].
    cbn. split; [now rewrite L|]. constructor; [|exact F]. apply digit_val_range in D. lia. }
  destruct (P _ _ E) as [L F]. rewrite <- L. now apply value_bound.
Qed.
Lemma read_group_range t v : read_group t = Some v -> in16 v.
Proof.
  unfold read_group. destruct (Nat.leb_spec (length t) 4); [|discriminate]. intros E. apply read_range in E; [|lia]. unfold in16.
  assert (16 ^ Z.of_nat (length t) <= 16 ^ 4) by (apply Z.pow_le_mono_r; lia). change (16 ^ 4) with 65536 in *. lia.
Qed.
Lemma groups6_range : forall toks acc mark g m, Forall in16 acc -> groups6 toks acc mark = Some (g, m) -> Forall in16 g.
Proof.
  intros toks. induction toks as [|t r IH]; intros acc mark g m F E; [discriminate|]. destruct r as [|t' r'].
  - rewrite groups6_last in E. destruct (read_group t) as [v|] eqn:R.
    + injection E as <- <-. apply read_group_range in R. apply Forall_app. auto.
    + destruct (pton4 t) as [a|] eqn:P; [|discriminate]. injection E as <- <-. apply pton4_range in P. change (2 ^ 32) with (65536 * 65536) in P.
      apply Forall_app. split; [exact F|]. apply Forall_cons; [split; [apply Z.div_pos; lia|apply Z.div_lt_upper_bound; lia]|]. apply Forall_cons; [apply Z.mod_pos_bound; lia|apply Forall_nil].
  - destruct t as [|c t].
    + destruct mark as [k|]; [destruct t' as [|]; [destruct r'|]; cbn in E; discriminate|].
      destruct (list_eq_dec (list_eq_dec ascii_dec) (t' :: r') [[]]) as [X|X].
      * injection X as -> ->. cbn in E. injection E as <- <-. exact F.
      * rewrite groups6_mark in E by (try discriminate; exact X). eapply IH; [exact F|exact E].
    + rewrite groups6_cons in E by discriminate. destruct (read_group (c :: t)) as [v|] eqn:R; [|discriminate]. apply read_group_range in R.
      eapply IH; [|exact E]. apply Forall_app. auto.
Qed.
Lemma pton6_range s a : pton6 s = Some a -> 0 <= a < 2 ^ 128.
Proof.
  unfold pton6. match goal with |- match ?b with _ => _ end = _ -> _ => destruct b as [body|]; [|discriminate] end.
  destruct (groups6 (split ":"%char body) [] None) as [[g m]|] eqn:G; [|discriminate]. apply groups6_range in G; [|constructor].
  assert (Z0 : forall k, Forall in16 (repeat 0 k)) by (induction k; constructor; [unfold in16; lia|assumption]).
  unfold expand6. destruct m as [k|].
  - destruct (Nat.leb_spec (length g) 7); [|discriminate]. cbn [option_map]. intros E. injection E as <-.
    assert (F : Forall in16 (firstn k g ++ repeat 0 (8 - length g) ++ skipn k g)).
    { rewrite <- (firstn_skipn k g) in G. apply Forall_app in G as [G1 G2]. apply Forall_app. split; [exact G1|]. apply Forall_app. auto. }
    assert (L : length (firstn k g ++ repeat 0 (8 - length g) ++ skipn k g) = 8%nat).
    { rewrite !app_length, repeat_length. assert (length g = length (firstn k g) + length (skipn k g))%nat by (rewrite <- app_length, firstn_skipn; reflexivity). lia. }
    pose proof (value_bound 65536 _ ltac:(lia) F) as V. rewrite L in V. exact V.
  - destruct (Nat.eqb_spec (length g) 8) as [L|]; [|discriminate]. cbn [option_map]. intros E. injection E as <-.
    pose proof (value_bound 65536 _ ltac:(lia) G) as V. rewrite L in V. exact V.
Qed.

(** ** construction *)
Definition proper (ip : ipaddr) : Prop :=
  is_ip ip -> 0 <= i_addr ip < 2 ^ width (i_fam ip) /\ 0 <= i_plen ip /\ i_addr ip mod net_size (i_fam ip) (i_plen ip) = 0.

Lemma size_pos f n : 0 < net_size f n. Proof. apply Z.pow_pos_nonneg; lia. Qed.
Lemma size_one f n : width f <= n -> net_size f n = 1.
Proof. intros H. unfold net_size. now replace (Z.max 0 (width f - n)) with 0 by lia. Qed.
Lemma masked_proper f a n : f = F4 \/ f = F6 -> 0 <= a < 2 ^ width f -> 0 <= n ->
  let x := a / net_size f n * net_size f n in 0 <= x < 2 ^ width f /\ x mod net_size f n = 0 /\ x <= a < x + net_size f n.
Proof.
  intros Hf Ha Hn x. pose proof (size_pos f n). pose proof (Z.div_mod a (net_size f n) ltac:(lia)). pose proof (Z.mod_pos_bound a (net_size f n) ltac:(lia)).
  assert (0 <= a / net_size f n) by (apply Z.div_pos; lia). unfold x. split; [nia|]. split; [apply Z.mod_mul; lia|nia].
Qed.
Lemma land4 a n : 0 <= n -> Z.land a (net_mask full4 n) = a / net_size F4 n * net_size F4 n.
Proof. intros H. rewrite full4_eq. apply land_mask; lia. Qed.
Lemma land6 a n : 0 <= n -> Z.land a (net_mask full6 n) = a / net_size F6 n * net_size F6 n.
Proof. intros H. rewrite full6_eq. apply land_mask; lia. Qed.
Lemma mask_eq f a m n : 0 <= m -> m mod net_size f n = 0 -> (a / net_size f n * net_size f n = m <-> m <= a < m + net_size f n).
Proof.
  intros Hm H. pose proof (size_pos f n) as P. pose proof (Z.div_mod m (net_size f n) ltac:(lia)) as Dm. rewrite H, Z.add_0_r in Dm.
  pose proof (Z.div_mod a (net_size f n) ltac:(lia)). pose proof (Z.mod_pos_bound a (net_size f n) ltac:(lia)). split; [lia|].
  intros R. assert (a / net_size f n = m / net_size f n); [|nia]. symmetry. apply (Z.div_unique_pos a (net_size f n) _ (a - m)); nia.
Qed.

Lemma in_net_holds ip net : proper net -> is_ip net -> in_net_num ip net = true <-> holds net (i_fam ip) (i_addr ip).
Proof.
  intros P I. destruct (P I) as (P1 & P2 & P3). unfold in_net_num, holds.
  destruct (eqb_spec (i_fam ip) (i_fam net)) as [E|N]; cbn [negb].
  - rewrite E. destruct I as [I|I]; rewrite I in *.
    + rewrite land4 by exact P2. rewrite Z.eqb_eq. rewrite mask_eq by (try exact P3; lia). tauto.
    + rewrite land6 by exact P2. rewrite Z.eqb_eq. rewrite mask_eq by (try exact P3; lia). tauto.
  - split; [discriminate|]. intros [X _]. congruence.
Qed.

Lemma compat_proper : proper ip6_4compat /\ is_ip ip6_4compat.
Proof. split; [|now right]. intros _. vm_compute. intuition congruence. Qed.
Lemma compat_mapped a s : in_net_num (mkIp F6 a 128 s) ip6_4compat = true <-> mapped a.
Proof.
  destruct compat_proper as [P I]. rewrite in_net_holds by assumption. unfold holds, mapped. cbn [i_fam i_addr i_plen ip6_4compat].
  change (net_size F6 96) with 4294967296. change (2 ^ 32) with 4294967296. intuition lia.
Qed.
Lemma land_low a : 0 <= a -> Z.land a 4294967295 = a mod 2 ^ 32.
Proof. intros H. change 4294967295 with (Z.ones 32). apply Z.land_ones. lia. Qed.

Lemma init_proper s c : sane_cidr c -> proper (ip_init s c).
Proof.
  intros S. unfold ip_init. destruct c as [| |v6|n].
  1-4: try (intros [X|X]; discriminate).
  - destruct (pton4 s) as [a|] eqn:E4.
    + intros _. apply pton4_range in E4. cbn [i_fam i_addr i_plen width]. rewrite size_one by (cbn; lia). rewrite Z.mod_1_r. lia.
    + destruct (pton6 s) as [a|] eqn:E6; [|intros [X|X]; discriminate]. apply pton6_range in E6. destruct (in_net_num _ _).
      * intros _. cbn [i_fam i_addr i_plen width]. rewrite land_low by lia. rewrite size_one by (cbn; lia). rewrite Z.mod_1_r.
        pose proof (Z.mod_pos_bound a (2 ^ 32) ltac:(lia)). lia.
      * intros _. cbn [i_fam i_addr i_plen width]. rewrite size_one by (cbn; lia). rewrite Z.mod_1_r. lia.
  - destruct (if negb v6 then pton4 s else None) as [a|] eqn:E4.
    + intros _. destruct v6; [discriminate|]. apply pton4_range in E4. cbn [i_fam i_addr i_plen width]. rewrite size_one by (cbn; lia). rewrite Z.mod_1_r. lia.
    + destruct (if v6 then pton6 s else None) as [a|] eqn:E6; [|intros [X|X]; discriminate]. destruct v6; [|discriminate]. apply pton6_range in E6. destruct (in_net_num _ _).
      * intros _. cbn [i_fam i_addr i_plen width]. rewrite land_low by lia. rewrite size_one by (cbn; lia). rewrite Z.mod_1_r.
        pose proof (Z.mod_pos_bound a (2 ^ 32) ltac:(lia)). lia.
      * intros _. cbn [i_fam i_addr i_plen width]. rewrite size_one by (cbn; lia). rewrite Z.mod_1_r. lia.
  - cbn in S. destruct (pton4 s) as [a|] eqn:E4.
    + intros _. apply pton4_range in E4. cbn [i_fam i_addr i_plen]. rewrite land4 by exact S.
      pose proof (masked_proper F4 a n ltac:(auto) E4 S) as (M1 & M2 & _). auto.
    + destruct (pton6 s) as [a|] eqn:E6; [|intros [X|X]; discriminate]. apply pton6_range in E6.
      intros _. cbn [i_fam i_addr i_plen]. rewrite land6 by exact S.
      pose proof (masked_proper F6 a n ltac:(auto) E6 S) as (M1 & M2 & _). auto.
Qed.

Lemma wrap_sane s t c : wrap_ipstr s = Some (t, c) -> sane_cidr c.
Proof.
  unfold wrap_ipstr. set (u := match s with [] => s | _ => _ end). clearbody u.
  destruct (split "/"%char u) as [|a [|b [|]]]; try (intros E; injection E as _ <-; exact I).
  destruct (matches ip_re a); [|intros E; injection E as _ <-; exact I].
  destruct (negb _ && _).
  - destruct (read 10 (chomp b)) as [n|] eqn:R; intros E; injection E as _ <-; [|exact I]. cbn. apply read_range in R; lia.
  - destruct (matches ip_re (chomp b)); [|intros E; injection E as _ <-; exact I].
    unfold masktoplen. destruct (dget _ mask_map) as [n|] eqn:D; [|discriminate]. cbn [option_map]. intros E. injection E as _ <-. cbn.
    apply dget_In in D. assert (F : forallb (fun kv => 0 <=? snd kv) mask_map = true) by (vm_compute; reflexivity).
    rewrite forallb_forall in F. apply F in D. cbn in D. lia.
Qed.
Lemma new_proper s c ip : sane_cidr c -> ip_new s c = Some ip -> proper ip.
Proof.
  intros S E. assert (X : forall c0, Some (ip_init s c0) = Some ip -> sane_cidr c0 -> proper ip).
  { intros c0 H S0. pose proof (init_proper s c0 S0) as P. injection H as <-. exact P. }
  unfold ip_new in E. destruct c as [| |v|n]; [|exact (X CRaw E I)|exact (X (CFam v) E I)|exact (X (CLen n) E S)].
  destruct (wrap_ipstr s) as [[t c]|] eqn:W; [|discriminate]. injection E as <-. apply init_proper. eapply wrap_sane; exact W.
Qed.

(** ** regular expressions *)
Lemma lang_chars f : forall s, forallb f s = true -> Forall (lang (RChr f)) (map (fun c => [c]) s).
Proof. induction s as [|c s IH]; cbn; [constructor|]. intros H. apply andb_true_iff in H as [H1 H2]. constructor; [now constructor|auto]. Qed.
Lemma concat_chars (s : text) : concat (map (fun c => [c]) s) = s.
Proof. induction s as [|c s IH]; cbn; [reflexivity|now f_equal]. Qed.
Lemma lang_rep_chars f n m s : (n <= length s <= n + m)%nat -> forallb f s = true -> lang (rrep n m (RChr f)) s.
Proof.
  intros L F. apply lang_rrep. exists (map (fun c => [c]) s). split; [symmetry; apply concat_chars|]. rewrite map_length. split; [exact L|now apply lang_chars].
Qed.
Lemma show_pos_length b n : (1 <= length (show b n))%nat.
Proof. destruct (show b n) eqn:E; [now apply show_nonempty in E|cbn; lia]. Qed.

Lemma ip4_only a : matches ip4_re (ntop4 a) = true.
Proof.
  apply matches_lang. unfold ip4_re, ntop4, octets. cbn [map].
  assert (O : forall k, lang (rrep 1 2 rdigit) (dec (a / k mod 256))).
  { intros k. pose proof (octet_range a k). apply lang_rep_chars.
    - pose proof (show_pos_length 10 (a / k mod 256)). unfold dec. assert (length (show 10 (a / k mod 256)) <= 3)%nat by (apply show_length; [lia|cbn; lia|lia]). lia.
    - apply digits10. lia. }
  assert (O1 : lang (rrep 1 2 rdigit) (dec (a mod 256))) by (rewrite <- (Z.div_1_r a); apply O).
  apply lang_cat. exists (dec (a / 16777216 mod 256) ++ tx "." ++ dec (a / 65536 mod 256) ++ tx "." ++ dec (a / 256 mod 256) ++ tx "."), (dec (a mod 256)).
  split; [|split; [|exact O1]].
  - cbn [join]. now rewrite <- !app_assoc.
  - apply lang_rrep. exists [dec (a / 16777216 mod 256) ++ tx "."; dec (a / 65536 mod 256) ++ tx "."; dec (a / 256 mod 256) ++ tx "."].
    split; [cbn [concat]; rewrite app_nil_r, <- !app_assoc; reflexivity|]. split; [cbn; lia|].
    repeat (apply Forall_cons || apply Forall_nil); (apply LCat; [apply O|now apply lang_rchar]).
Qed.
Lemma ip4_matches a : matches ip_re (ntop4 a) = true.
Proof. apply matches_lang, lang_alt. left. apply matches_lang, ip4_only. Qed.

Definition rhex4 : re := rrep 1 3 rhex.
Lemma hex_lang g : in16 g -> lang rhex4 (hex g).
Proof.
  intros H. apply lang_rep_chars.
  - pose proof (show_pos_length 16 g). assert (length (show 16 g) <= 4)%nat by (apply show_length; [lia|exact H|lia]). unfold hex. lia.
  - apply forallb_forall. intros c I. apply show_chars in I as (d & R & ->); [|lia|unfold in16 in H; lia]. now rewrite digit_val_char by lia.
Qed.
Definition piece_re : re := RAlt (RCat rhex4 (RCat (rchar ":") (ropt (rchar ":")))) (rchar ":").
Lemma piece_hex g : in16 g -> lang piece_re (hex g ++ tx ":").
Proof.
  intros H. apply lang_alt. left. apply lang_cat. exists (hex g), (tx ":"). split; [reflexivity|]. split; [now apply hex_lang|].
  apply lang_cat. exists (tx ":"), []. split; [reflexivity|]. split; [now apply lang_rchar|]. apply lang_ropt. now left.
Qed.
Lemma piece_colon : lang piece_re (tx ":").
Proof. apply lang_alt. right. now apply lang_rchar. Qed.
Lemma ip6_lang pieces final : (1 <= length pieces <= 7)%nat -> Forall (lang piece_re) pieces ->
  lang (RAlt rhex4 (rchar ":")) final -> lang ip6_re (concat pieces ++ final).
Proof.
  intros L F1 F2. apply lang_cat. exists (concat pieces), final. split; [reflexivity|]. split; [|exact F2]. apply lang_rrep. exists pieces. auto.
Qed.
Definition hc (g : Z) : text := hex g ++ tx ":".
Lemma join_hc l : l <> [] -> join (tx ":") (map hex l) ++ tx ":" = concat (map hc l).
Proof.
  induction l as [|g l IH]; [congruence|]. intros _. destruct l as [|g' l].
  - cbn. now rewrite app_nil_r.
  - change (map hex (g :: g' :: l)) with (hex g :: map hex (g' :: l)). change (concat (map hc (g :: g' :: l))) with ((hex g ++ tx ":") ++ concat (map hc (g' :: l))).
    rewrite join_cons by discriminate. rewrite <- IH by discriminate. now rewrite <- !app_assoc.
Qed.
Lemma join_snoc l g : join (tx ":") (map hex (l ++ [g])) = concat (map hc l) ++ hex g.
Proof.
  destruct l as [|x l]; [reflexivity|]. rewrite map_app, join_app by discriminate. rewrite app_assoc, join_hc by discriminate. reflexivity.
Qed.
Lemma Forall_hc l : Forall in16 l -> Forall (lang piece_re) (map hc l).
Proof. intros F. rewrite Forall_map. eapply Forall_impl; [|exact F]. intros g. apply piece_hex. Qed.

Definition dotted_form (a : Z) : bool :=
  let g := groups a in let '(b, n) := best_run g 0 in
  Nat.leb 2 n && (Nat.eqb b 0 && (Nat.eqb n 6 || (Nat.eqb n 5 && (nth 5 g 0 =? 65535)))).

Lemma ip6_only a : dotted_form a = false -> matches ip6_re (ntop6 a) = true.
Proof.
  intros D. apply matches_lang. unfold ntop6, dotted_form in *. pose proof (groups_in16 a) as F. pose proof (groups_length a) as L.
  destruct (best_run (groups a) 0) as [b n] eqn:E. destruct (best_run_split _ _ _ _ E) as (pre & post & Eg & ->). cbn [Nat.add].
  assert (Lg : (length pre + (n + length post) = 8)%nat) by (rewrite <- L, Eg, !app_length, repeat_length; reflexivity).
  destruct (Nat.leb_spec 2 n) as [N|N].
  - cbn [andb] in D. cbn [Nat.add] in D. rewrite D.
    assert (F' : Forall in16 pre /\ Forall in16 post).
    { rewrite Eg in F. apply Forall_app in F as [F1 F2]. apply Forall_app in F2 as [_ F2]. auto. } destruct F' as [Fp Fq].
    assert (Epre : firstn (length pre) (groups a) = pre) by (rewrite Eg, firstn_app, Nat.sub_diag, firstn_all; apply app_nil_r).
    assert (Epost : skipn (length pre + n) (groups a) = post).
    { rewrite Eg, app_assoc. replace (length pre + n)%nat with (length (pre ++ repeat 0 n)) by (rewrite app_length, repeat_length; reflexivity).
      now rewrite skipn_app, skipn_all, Nat.sub_diag. }
    rewrite Epre, Epost. change (tx "::") with (tx ":" ++ tx ":"). clear E Eg Epre Epost D.
    assert (Fc : lang (RAlt rhex4 (rchar ":")) (tx ":")) by (apply lang_alt; right; now apply lang_rchar).
    destruct post as [|q post'] using rev_ind; [|clear IHpost'].
    + cbn [map join]. rewrite app_nil_r. destruct pre as [|g pre].
      * cbn [map join app]. apply (ip6_lang [tx ":"] (tx ":")); [cbn; lia|constructor; [apply piece_colon|constructor]|exact Fc].
      * rewrite app_assoc, join_hc by discriminate. apply ip6_lang; [rewrite map_length; cbn in *; lia|now apply Forall_hc|exact Fc].
    + apply Forall_app in Fq as [Fq1 Fq2]. inversion Fq2; subst. rewrite app_length in Lg. cbn in Lg. rewrite join_snoc.
      assert (Fin : lang (RAlt rhex4 (rchar ":")) (hex q)) by (apply lang_alt; left; now apply hex_lang).
      destruct pre as [|g pre].
      * cbn [map join app]. apply (ip6_lang ([":"%char] :: [":"%char] :: map hc post') (hex q)); [cbn; rewrite map_length; cbn in Lg; lia| |exact Fin].
        constructor; [apply piece_colon|]. constructor; [apply piece_colon|]. now apply Forall_hc.
      * rewrite <- app_assoc, app_assoc, join_hc by discriminate.
        replace (concat (map hc (g :: pre)) ++ tx ":" ++ concat (map hc post') ++ hex q)
          with (concat (map hc (g :: pre) ++ tx ":" :: map hc post') ++ hex q) by (rewrite concat_app; cbn [concat]; now rewrite <- !app_assoc).
        apply ip6_lang; [rewrite app_length, map_length; cbn [length]; rewrite map_length; cbn in *; lia| |exact Fin].
        apply Forall_app. split; [now apply Forall_hc|]. constructor; [apply piece_colon|now apply Forall_hc].
  - clear E Eg. destruct (groups a) as [|q l] using rev_ind; [discriminate|]. clear IHl. apply Forall_app in F as [F1 F2]. inversion F2; subst.
    rewrite app_length in L. cbn in L. rewrite join_snoc. apply ip6_lang; [rewrite map_length; lia|now apply Forall_hc|]. apply lang_alt. left. now apply hex_lang.
Qed.

Lemma ip6_matches a : dotted_form a = false -> matches ip_re (ntop6 a) = true.
Proof. intros D. apply matches_lang, lang_alt. right. now apply matches_lang, ip6_only. Qed.

(** the characters of a match *)
Fixpoint only (P : ascii -> Prop) (r : re) : Prop :=
  match r with
  | RNone | REps => True
  | RChr f => forall c, f c = true -> P c
  | RAlt a b | RCat a b => only P a /\ only P b
  | RStar a => only P a
  end.
Lemma only_lang P r s : lang r s -> only P r -> Forall P s.
Proof. induction 1; cbn; intros O; auto; try tauto; try (apply Forall_app; tauto). Qed.
Lemma ip4_chars s c : matches ip4_re s = true -> In c s -> is_digit c = true \/ c = "."%char.
Proof.
  intros M I. apply matches_lang in M. apply (only_lang (fun c => is_digit c = true \/ c = "."%char)) in M.
  - rewrite Forall_forall in M. auto.
  - cbn. repeat split; intros x E; auto; right; unfold rchar in *; now apply eqb_true in E.
Qed.

Lemma best_run_first l n : best_run l 0 = (0%nat, n) -> l <> [] -> n = zero_run l.
Proof.
  intros E N. destruct l as [|x l]; [congruence|]. cbn [best_run] in E. destruct (best_run l 1) as [b' n'] eqn:E'.
  destruct (Nat.leb n' (zero_run (x :: l))); injection E; [auto|]. intros. apply best_run_split in E' as (p & q & _ & X). lia.
Qed.
Lemma dotted_written a : 0 <= a < 2 ^ 128 -> dotted_form a = true -> written_dotted a.
Proof.
  intros H D. unfold dotted_form in D. pose proof (groups_value a H) as V. pose proof (groups_in16 a) as F.
  destruct (best_run (groups a) 0) as [b n] eqn:E. apply andb_true_iff in D as [_ D]. apply andb_true_iff in D as [D1 D2]. apply Nat.eqb_eq in D1 as ->.
  apply best_run_first in E; [|discriminate]. destruct (groups a) as [|g0 [|g1 [|g2 [|g3 [|g4 [|g5 [|g6 [|g7 [|]]]]]]]]] eqn:G; try (pose proof (groups_length a); rewrite G in *; discriminate).
  repeat match goal with H : Forall in16 (_ :: _) |- _ => inversion H; clear H; subst end. unfold in16, written_dotted in *. unfold value in *. cbn [fold_left nth] in *.
  change (2 ^ 32) with 4294967296.
  assert (Zr : forall x l, zero_run (x :: l) = if x =? 0 then S (zero_run l) else O) by (intros x l; cbn [zero_run]; now destruct x).
  rewrite !Zr in D2. repeat match type of D2 with context [if ?x =? 0 then _ else _] => destruct (Z.eqb_spec x 0); subst; cbn in D2; try discriminate end.
  - left. lia.
  - right. lia.
Qed.

(** ** texts without brackets and slashes *)
Lemma ntop4_chars a c : In c (ntop4 a) -> is_digit c = true \/ c = "."%char.
Proof.
  intros I. unfold ntop4 in I. apply In_join in I as [I|(t & I1 & I2)]; [right; now destruct I as [<-|[]]|]. left.
  apply in_map_iff in I1 as (n & <- & I1). assert (0 <= n).
  { cbn in I1. destruct I1 as [<-|[<-|[<-|[<-|[]]]]]; apply Z.mod_pos_bound; lia. }
  pose proof (digits10 n H) as D. rewrite forallb_forall in D. auto.
Qed.
Lemma ntop6_chars a c : In c (ntop6 a) -> digit_val c <> None \/ c = "."%char \/ c = ":"%char.
Proof.
  assert (Hx : forall l, Forall in16 l -> forall t, In t (map hex l) -> In c t -> digit_val c <> None).
  { intros l F t I1 I2. apply in_map_iff in I1 as (g & <- & I1). rewrite Forall_forall in F. apply F in I1. unfold in16 in I1.
    apply show_chars in I2 as (d & R & ->); [|lia|lia]. rewrite digit_val_char by lia. discriminate. }
  pose proof (groups_in16 a) as F.
  assert (Fs : forall k, Forall in16 (skipn k (groups a))).
  { intros k. rewrite <- (firstn_skipn k) in F. now apply Forall_app in F. }
  assert (Ff : forall k l, Forall in16 l -> Forall in16 (firstn k l)).
  { intros k l G. rewrite <- (firstn_skipn k l) in G. now apply Forall_app in G. }
  unfold ntop6. destruct (best_run (groups a) 0) as [b n]. destruct (Nat.leb 2 n).
  - rewrite !in_app_iff. intros [I|[I|I]].
    + apply In_join in I as [[<-|[]]|(t & I1 & I2)]; [auto|]. left. exact (Hx _ (Ff b _ F) t I1 I2).
    + destruct I as [<-|[<-|[]]]; auto.
    + apply In_join in I as [[<-|[]]|(t & I1 & I2)]; [auto|]. destruct (_ && _).
      * apply in_app_iff in I1 as [I1|[<-|[]]]; [left; exact (Hx _ (Ff _ _ (Fs _)) t I1 I2)|].
        apply ntop4_chars in I2 as [I2|I2]; [|auto]. left. unfold is_digit in I2. unfold digit_val. rewrite I2. discriminate.
      * left. exact (Hx _ (Fs _) t I1 I2).
  - intros I. apply In_join in I as [[<-|[]]|(t & I1 & I2)]; [auto|]. left. exact (Hx _ F t I1 I2).
Qed.
Definition plain (s : text) : Prop := ~ In "["%char s /\ ~ In "/"%char s /\ ~ In newline s.
Lemma plain4 a : plain (ntop4 a).
Proof. repeat split; intros I; apply ntop4_chars in I as [I|I]; discriminate. Qed.
Lemma plain6 a : plain (ntop6 a).
Proof. repeat split; intros I; apply ntop6_chars in I as [I|[I|I]]; (discriminate || (apply I; reflexivity)). Qed.
Lemma plain_dec n : 0 <= n -> plain (dec n).
Proof. intros H. repeat split; apply dec_free; auto. Qed.

Lemma chomp_id s : ~ In newline s -> chomp s = s.
Proof.
  intros N. unfold chomp. destruct (rev s) as [|c r] eqn:E; [reflexivity|]. destruct (eqb_spec c newline) as [->|]; [|reflexivity].
  exfalso. apply N. rewrite in_rev, E. now left.
Qed.
Lemma wrap_head s : ~ In "["%char s ->
  match s with c :: ((_ :: _ :: _) as r) => if eqb c "["%char && eqb (last r "x"%char) "]"%char then removelast r else s | _ => s end = s.
Proof.
  intros N. destruct s as [|c [|c1 [|c2 r]]]; try reflexivity. destruct (eqb_spec c "["%char) as [->|]; [|reflexivity]. destruct N. now left.
Qed.
Lemma wrap_plain s : plain s -> wrap_ipstr s = Some (s, CUnspec).
Proof. intros (N1 & N2 & _). unfold wrap_ipstr. rewrite wrap_head by exact N1. now rewrite split_free. Qed.
Lemma wrap_slash a b : plain a -> plain b -> wrap_ipstr (a ++ tx "/" ++ b) =
  if matches ip_re a then
        if negb (eqb b []) && forallb is_digit b then
          match read 10 b with Some n => Some (a, CLen n) | None => Some (a ++ tx "/" ++ b, CUnspec) end
        else if matches ip_re b then option_map (fun n => (a, CLen n)) (masktoplen b)
        else Some (a ++ tx "/" ++ b, CUnspec)
      else Some (a ++ tx "/" ++ b, CUnspec).
Proof.
  intros (A1 & A2 & A3) (B1 & B2 & B3). unfold wrap_ipstr. rewrite wrap_head.
  - cbn [tx list_ascii_of_string app]. rewrite split_app by exact A2. rewrite split_free by exact B2. rewrite chomp_id by exact B3. reflexivity.
  - rewrite !in_app_iff. intros [I|[[I|[]]|I]]; [contradiction|discriminate|contradiction].
Qed.
Lemma wrap_len a n : plain a -> matches ip_re a = true -> 0 <= n -> wrap_ipstr (a ++ tx "/" ++ dec n) = Some (a, CLen n).
Proof.
  intros P M H. rewrite wrap_slash by (auto using plain_dec). rewrite M, digits10 by exact H.
  replace (eqb (dec n) []) with false; [|symmetry; apply eqb_neq, show_nonempty]. cbn [negb andb]. unfold dec. rewrite read_show by lia. reflexivity.
Qed.
Lemma wrap_brackets s : s <> [] -> plain s -> wrap_ipstr (tx "[" ++ s ++ tx "]") = Some (s, CUnspec).
Proof.
  intros N (P1 & P2 & P3).
  assert (E : match (tx "[" ++ s ++ tx "]")%list with c :: ((_ :: _ :: _) as r) => if eqb c "["%char && eqb (last r "x"%char) "]"%char then removelast r else tx "[" ++ s ++ tx "]" | _ => tx "[" ++ s ++ tx "]" end = s).
  { change (tx "[" ++ s ++ tx "]") with ("["%char :: (s ++ ["]"%char])). destruct (s ++ ["]"%char]) as [|c1 [|c2 r]] eqn:E.
    - destruct s; discriminate.
    - destruct s as [|x [|y s]]; [congruence|discriminate|discriminate].
    - rewrite <- E. rewrite last_last. cbn [eqb]. rewrite removelast_last. reflexivity. }
  unfold wrap_ipstr. cbv zeta. lazymatch goal with |- context [split _ ?t] => replace t with s by (symmetry; exact E) end. now rewrite split_free.
Qed.

(** ** masks written as addresses *)
Lemma masktoplen4 m : 0 <= m < 2 ^ 32 -> masktoplen (ntop4 m) = dget m mask_map.
Proof. intros H. unfold masktoplen, ip_init. now rewrite pton4_ntop4. Qed.
Lemma mask_map_spec m n : 0 <= m < 2 ^ 32 -> dget m mask_map = Some n <-> 0 <= n <= 32 /\ m = 2 ^ 32 - 2 ^ (32 - n).
Proof.
  intros H. split.
  - intros D. apply dget_In in D.
    assert (F : forallb (fun kv => ((0 <=? snd kv) && (snd kv <=? 32) && (fst kv =? 2 ^ 32 - 2 ^ (32 - snd kv))) || (2 ^ 32 <=? fst kv)) mask_map = true) by (vm_compute; reflexivity).
    rewrite forallb_forall in F. apply F in D. cbn [fst snd] in D. lia.
  - intros [R ->]. assert (F : forallb (fun k => eqb (dget (2 ^ 32 - 2 ^ (32 - k)) mask_map) (Some k)) (map Z.of_nat (seq 0 33)) = true) by (vm_compute; reflexivity).
    rewrite forallb_forall in F. apply eqb_true. apply F. apply in_map_iff. exists (Z.to_nat n). split; [lia|]. apply in_seq. lia.
Qed.

(** ** text round trip *)
Lemma masked_self f n a : a mod net_size f n = 0 -> a / net_size f n * net_size f n = a.
Proof. intros H. pose proof (size_pos f n). pose proof (Z.div_mod a (net_size f n) ltac:(lia)). lia. Qed.

Lemma reparse4 ip : proper ip -> i_fam ip = F4 -> 0 < i_plen ip <= 32 ->
  exists ip', ip_new (ntoa ip) CUnspec = Some ip' /\ i_fam ip' = F4 /\ i_addr ip' = i_addr ip /\ i_plen ip' = i_plen ip.
Proof.
  intros P F L. destruct (P (or_introl F)) as (R & _ & M). rewrite F in *. cbn [width] in R. unfold ntoa. rewrite F.
  destruct (Z.ltb_spec (i_plen ip) 32).
  - replace (negb (i_plen ip =? 0)) with true by lia. cbn [andb]. unfold ip_new. rewrite wrap_len by (try apply plain4; try apply ip4_matches; lia).
    unfold ip_init. rewrite pton4_ntop4 by exact R. eexists. split; [reflexivity|]. cbn [i_fam i_addr i_plen].
    rewrite land4 by lia. rewrite masked_self by exact M. auto.
  - rewrite andb_false_r, app_nil_r. unfold ip_new. rewrite wrap_plain by apply plain4. unfold ip_init. rewrite pton4_ntop4 by exact R.
    eexists. split; [reflexivity|]. cbn. repeat split. lia.
Qed.
Lemma reparse6 ip : proper ip -> i_fam ip = F6 -> 0 < i_plen ip <= 128 ->
  (i_plen ip = 128 -> ~ mapped (i_addr ip)) -> (i_plen ip < 128 -> ~ written_dotted (i_addr ip)) ->
  exists ip', ip_new (ntoa ip) CUnspec = Some ip' /\ i_fam ip' = F6 /\ i_addr ip' = i_addr ip /\ i_plen ip' = i_plen ip.
Proof.
  intros P F L N1 N2. destruct (P (or_intror F)) as (R & _ & M). rewrite F in *. cbn [width] in R. unfold ntoa. rewrite F.
  destruct (Z.ltb_spec (i_plen ip) 128).
  - replace (negb (i_plen ip =? 0)) with true by lia. cbn [andb]. unfold ip_new. rewrite wrap_len.
    + unfold ip_init. rewrite pton4_ntop6, pton6_ntop6 by exact R. eexists. split; [reflexivity|]. cbn [i_fam i_addr i_plen].
      rewrite land6 by lia. rewrite masked_self by exact M. auto.
    + apply plain6.
    + apply ip6_matches. destruct (dotted_form (i_addr ip)) eqn:D; [|reflexivity]. apply dotted_written in D; [|exact R]. now destruct N2.
    + lia.
  - rewrite andb_false_r, app_nil_r. unfold ip_new. rewrite wrap_plain by apply plain6. unfold ip_init. rewrite pton4_ntop6, pton6_ntop6 by exact R.
    destruct (in_net_num _ _) eqn:C; [apply compat_mapped in C; destruct N1; [lia|exact C]|].
    eexists. split; [reflexivity|]. cbn. repeat split. lia.
Qed.

(** ** equality *)
Lemma ip_eq_same a b : i_fam a <> FRaw -> ip_eq a b = true -> i_fam a <> FUnspec -> same_ip a b.
Proof.
  intros N E U. unfold ip_eq in E. destruct (eqb_spec (i_fam a) (i_fam b)) as [F|F]; cbn [negb] in E; [|discriminate].
  unfold same_ip, is_ip. destruct (i_fam a); try congruence; apply andb_true_iff in E as [E1 E2];
    (split; [exact F|]; split; [lia|]; split; [lia|]; intros X; exfalso; auto).
Qed.
Lemma same_ntoa a b : i_fam a = i_fam b -> i_addr a = i_addr b -> i_plen a = i_plen b -> (i_fam a = F4 \/ i_fam a = F6 \/ i_raw a = i_raw b) -> ntoa a = ntoa b.
Proof.
  intros E1 E2 E3 E4. unfold ntoa. rewrite <- E1, <- E2, <- E3. destruct (i_fam a); auto; destruct E4 as [E4|[E4|E4]]; congruence.
Qed.

(** ** sets *)
Definition key_eq (a b : ipaddr) : bool := eqb (ntoa a) (ntoa b) && ip_eq b a.
Lemma ip_eq_refl a : ip_eq a a = true.
Proof. unfold ip_eq. rewrite eqb_refl. cbn [negb]. destruct (i_fam a); rewrite ?eqb_refl, ?Z.eqb_refl; reflexivity. Qed.
Lemma set_add_In ip l x : In x (set_add ip l) -> In x l \/ x = ip.
Proof. unfold set_add. destruct (set_mem ip l); [auto|]. rewrite in_app_iff. intros [I|[->|[]]]; auto. Qed.
Lemma set_add_has ip l : exists y, In y (set_add ip l) /\ ntoa y = ntoa ip /\ ip_eq ip y = true.
Proof.
  unfold set_add. destruct (set_mem ip l) eqn:E.
  - apply existsb_exists in E as (y & I & E). apply andb_true_iff in E as [E1 E2]. apply eqb_true in E1. eauto.
  - exists ip. split; [apply in_or_app; right; now left|]. split; [reflexivity|apply ip_eq_refl].
Qed.
Lemma set_add_keeps ip l x : In x l -> In x (set_add ip l).
Proof. intros I. unfold set_add. destruct (set_mem ip l); [exact I|]. apply in_or_app. now left. Qed.

(** The set holds what it was given, up to equal elements. *)
Definition holds_all (g : list ipaddr) (s : ipset) : Prop :=
  (forall x, In x (s_items s) -> In x g) /\
  (forall x, In x g -> exists y, In y (s_items s) /\ ntoa y = ntoa x /\ ip_eq x y = true) /\
  0 <= s_subnets s /\
  (s_subnets s <> 0 <-> exists x, In x g /\ is_single x = false).
Lemma fold_set_add l : forall acc g, (forall x, In x acc -> In x g) ->
  (forall x, In x g -> exists y, In y acc /\ ntoa y = ntoa x /\ ip_eq x y = true) ->
  let r := fold_left (fun l ip => set_add ip l) l acc in
  (forall x, In x r -> In x (g ++ l)) /\ (forall x, In x (g ++ l) -> exists y, In y r /\ ntoa y = ntoa x /\ ip_eq x y = true).
Proof.
  induction l as [|ip l IH]; intros acc g H1 H2; cbn.
  - rewrite app_nil_r. auto.
  - specialize (IH (set_add ip acc) (g ++ [ip])). rewrite <- app_assoc in IH. apply IH.
    + intros x I. apply set_add_In in I as [I| ->]; apply in_or_app; [left; auto|right; now left].
    + intros x I. apply in_app_iff in I as [I|[<-|[]]].
      * destruct (H2 x I) as (y & Iy & E). exists y. split; [now apply set_add_keeps|exact E].
      * apply set_add_has.
Qed.
Lemma fold_subnets l : forall n, 0 <= n -> let r := fold_left (fun n ip => if is_single ip then n else n + 1) l n in
  0 <= r /\ (r <> 0 <-> n <> 0 \/ exists x, In x l /\ is_single x = false).
Proof.
  induction l as [|ip l IH]; intros n H; cbn.
  - split; [exact H|]. split; [auto|]. intros [X|(x & [] & _)]. exact X.
  - destruct (is_single ip) eqn:E.
    + destruct (IH n H) as [IH1 IH2]. split; [exact IH1|]. rewrite IH2. split; intros [X|(x & I & S)]; auto.
      * right. exists x. auto.
      * destruct I as [->|I]; [congruence|]. right. eauto.
    + destruct (IH (n + 1) ltac:(lia)) as [IH1 IH2]. split; [exact IH1|]. rewrite IH2. split; [intros _|intros _; left; lia].
      right. exists ip. auto.
Qed.
Lemma ipset_of_holds l : holds_all l (ipset_of l).
Proof.
  destruct (fold_set_add l [] [] ltac:(tauto) ltac:(intros x [])) as [H1 H2]. destruct (fold_subnets l 0 ltac:(lia)) as [H3 H4].
  cbn [app] in *. unfold holds_all, ipset_of. cbn [s_items s_subnets]. repeat split; auto.
  - intros X. apply H4 in X as [X|X]; [lia|exact X].
  - intros X. apply H4. auto.
Qed.
Lemma ipset_add_holds ip g s : holds_all g s -> holds_all (g ++ [ip]) (ipset_add ip s).
Proof.
  intros (H1 & H2 & H3 & H4). unfold holds_all, ipset_add. cbn [s_items s_subnets]. split; [|split; [|split]].
  - intros x I. apply set_add_In in I as [I| ->]; apply in_or_app; [left; auto|right; now left].
  - intros x I. apply in_app_iff in I as [I|[<-|[]]].
    + destruct (H2 x I) as (y & Iy & E). exists y. split; [now apply set_add_keeps|exact E].
    + apply set_add_has.
  - destruct (is_single ip); [exact H3|]. apply Z.lor_nonneg. lia.
  - destruct (is_single ip) eqn:E.
    + rewrite H4. split; intros (x & I & S).
      * exists x. split; [apply in_or_app; now left|exact S].
      * apply in_app_iff in I as [I|[<-|[]]]; [eauto|congruence].
    + split; [intros _; exists ip; split; [apply in_or_app; right; now left|exact E]|]. intros _ X.
      apply Z.lor_eq_0_iff in X as [_ X]. discriminate.
Qed.
Lemma set_run_holds ops : holds_all (given ops) (set_run ops).
Proof.
  unfold given, set_run. assert (G : forall g s, holds_all g s -> holds_all (fold_left given_step ops g) (fold_left set_step ops s)).
  { induction ops as [|o ops IH]; intros g s H; [exact H|]. cbn [fold_left]. apply IH. destruct o as [l|ip]; cbn; [apply ipset_of_holds|now apply ipset_add_holds]. }
  apply G. unfold holds_all. cbn. repeat split; try tauto; try lia. intros (x & [] & _).
Qed.

Lemma contains_key resolve ip x y : ntoa y = ntoa x -> ip_eq x y = true -> contains resolve x ip = true -> contains resolve y ip = true.
Proof.
  intros N E. unfold ip_eq in E. destruct (eqb_spec (i_fam x) (i_fam y)) as [F|F]; cbn [negb] in E; [|discriminate].
  unfold contains, ip_eq, is_in_net, is_valid, in_net_num. rewrite <- F.
  destruct (i_fam x) eqn:Fx.
  - apply eqb_true in E. rewrite <- E. destruct (i_fam ip); cbn; auto.
  - apply andb_true_iff in E as [E1 E2]. apply Z.eqb_eq in E1, E2. rewrite <- E1, <- E2. destruct (i_fam ip); cbn; auto.
  - apply andb_true_iff in E as [E1 E2]. apply Z.eqb_eq in E1, E2. rewrite <- E1, <- E2. destruct (i_fam ip); cbn; auto.
  - apply andb_true_iff in E as [E1 E2]. apply Z.eqb_eq in E1, E2. rewrite <- E1, <- E2. destruct (i_fam ip); cbn; auto.
Qed.

Lemma single_contains resolve x ip : proper x -> is_single x = true -> is_single ip = true -> contains resolve x ip = true -> ip_eq ip x = true.
Proof.
  intros P Sx Si C. unfold contains in C. apply orb_true_iff in C as [C|C]; [exact C|].
  assert (Ix : is_ip x) by (unfold is_single in Sx; unfold is_ip; destruct (i_fam x); auto; discriminate).
  assert (V : is_valid x = true) by (unfold is_valid; destruct Ix as [-> | ->]; reflexivity).
  unfold is_in_net in C. rewrite V in C. cbn [negb andb] in C. apply in_net_holds in C; [|exact P|exact Ix]. destruct C as [F R].
  assert (L : net_size (i_fam ip) (i_plen x) = 1) by (apply size_one; rewrite <- F; unfold is_single in Sx; destruct (i_fam x); try discriminate; cbn; lia).
  rewrite L in R. unfold ip_eq, is_single in *. rewrite F in *. rewrite eqb_refl. cbn [negb].
  destruct (i_fam ip); try discriminate; apply andb_true_iff; split; lia.
Qed.
