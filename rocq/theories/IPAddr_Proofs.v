(** Proofs about addresses, their texts, networks and sets. *)
From Verif Require Import Base Text Regex IPAddr_Model.
From Coq Require Import ZifyBool ZifyNat.

(** ** Masks *)
Lemma land_mask w a n : 0 <= w -> 0 <= n -> Z.land a (net_mask (2 ^ w - 1) n) = a / 2 ^ Z.max 0 (w - n) * 2 ^ Z.max 0 (w - n).
Proof.
  intros W N. unfold net_mask. change (Z.land a (Z.lnot (Z.shiftr (2 ^ w - 1) n))) with (Z.land a (Z.lnot (Z.shiftr (2 ^ w - 1) n))).
  rewrite <- Z.ldiff_land. replace (2 ^ w - 1) with (Z.ones w) by (rewrite Z.ones_equiv; lia).
  assert (E : Z.shiftr (Z.ones w) n = Z.ones (Z.max 0 (w - n))).
  { rewrite Z.shiftr_div_pow2 by exact N. destruct (Z.le_gt_cases n w) as [L|L].
    - replace (Z.max 0 (w - n)) with (w - n) by lia. apply Z.ones_div_pow2. lia.
    - replace (Z.max 0 (w - n)) with 0 by lia. rewrite Z.div_small; [reflexivity|]. rewrite Z.ones_equiv.
      assert (2 ^ w < 2 ^ n) by (apply Z.pow_lt_mono_r; lia). assert (0 < 2 ^ w) by (apply Z.pow_pos_nonneg; lia). lia. }
  rewrite E, Z.ldiff_ones_r by lia. rewrite Z.shiftr_div_pow2, Z.shiftl_mul_pow2 by lia. reflexivity.
Qed.
Lemma full4_eq : full4 = 2 ^ 32 - 1. Proof. reflexivity. Qed.
Lemma full6_eq : full6 = 2 ^ 128 - 1. Proof. reflexivity. Qed.

(** ** IPv4 text *)
Lemma octet_range a k : 0 <= a / k mod 256 < 256. Proof. apply Z.mod_pos_bound. lia. Qed.

Lemma is_digit_char d : 0 <= d < 10 -> is_digit (digit_char d) = true.
Proof. intros H. unfold is_digit. rewrite char_code_digit by lia. destruct (Z.ltb_spec d 10); lia. Qed.
Lemma digits10 n : 0 <= n -> forallb is_digit (dec n) = true.
Proof.
  intros H. apply forallb_forall. intros c I. apply show_chars in I as (d & R & ->); [now apply is_digit_char|lia|exact H].
Qed.
Lemma digit_zero d : 0 <= d < 10 -> digit_char d = "0"%char -> d = 0.
Proof. intros H E. assert (X : digit_val (digit_char d) = digit_val "0") by now rewrite E. rewrite digit_val_char in X by lia. now injection X. Qed.

Lemma read_octet_dec n : 0 <= n < 256 -> read_octet (dec n) = Some n.
Proof.
  intros H. unfold read_octet. rewrite digits10 by lia. unfold dec. pose proof (read_show 10 n ltac:(lia) ltac:(lia)) as R.
  destruct (show 10 n) as [|c [|c' r]] eqn:E.
  - now apply show_nonempty in E.
  - rewrite R. destruct (Z.leb_spec n 255); [reflexivity|lia].
  - rewrite R. destruct (eqb_spec c "0"%char) as [->|N]; [|destruct (Z.leb_spec n 255); [reflexivity|lia]].
    exfalso. destruct (Z.eq_dec n 0) as [->|N0].
    + unfold show in E. rewrite digits_zero in E by lia. discriminate.
    + destruct (digits_lead 10 n ltac:(lia) ltac:(lia)) as (d & l & Ed & Nd). unfold show in E. rewrite Ed in E. injection E as E _.
      pose proof (digits_range 10 n ltac:(lia) ltac:(lia)) as F. rewrite Ed in F. inversion F; subst. apply digit_zero in E; lia.
Qed.

Lemma dec_free n c : 0 <= n -> digit_val c = None -> ~ In c (dec n).
Proof. intros H E. apply show_free; auto; lia. Qed.

Lemma split_ntop4 a : split "."%char (ntop4 a) = map dec (octets a).
Proof.
  unfold ntop4. apply split_join; [discriminate|]. apply Forall_forall. intros t I. apply in_map_iff in I as (n & <- & I).
  apply dec_free; [|reflexivity]. cbn in I. destruct I as [<-|[<-|[<-|[<-|[]]]]]; try apply octet_range. rewrite <- (Z.div_1_r a). apply octet_range.
Qed.

Lemma octets_value a : 0 <= a < 2 ^ 32 ->
  ((a / 16777216 mod 256 * 256 + a / 65536 mod 256) * 256 + a / 256 mod 256) * 256 + a mod 256 = a.
Proof.
  intros H. change (2 ^ 32) with 4294967296 in H.
  pose proof (Z.div_mod a 256 ltac:(lia)). pose proof (Z.div_mod (a / 256) 256 ltac:(lia)). pose proof (Z.div_mod (a / 65536) 256 ltac:(lia)).
  assert (a / 256 / 256 = a / 65536) by (rewrite Z.div_div; [reflexivity|lia|lia]).
  assert (a / 65536 / 256 = a / 16777216) by (rewrite Z.div_div; [reflexivity|lia|lia]).
  assert (a / 16777216 mod 256 = a / 16777216) by (apply Z.mod_small; split; [apply Z.div_pos; lia|apply Z.div_lt_upper_bound; lia]).
  lia.
Qed.

Lemma pton4_ntop4 a : 0 <= a < 2 ^ 32 -> pton4 (ntop4 a) = Some a.
Proof.
  intros H. unfold pton4. rewrite split_ntop4. cbn [map octets].
  rewrite !read_octet_dec; try apply octet_range; [|rewrite <- (Z.div_1_r a); apply octet_range].
  f_equal. now apply octets_value.
Qed.

Lemma read_octet_range t v : read_octet t = Some v -> 0 <= v <= 255.
Proof.
  unfold read_octet. destruct (forallb is_digit t); [|discriminate].
  assert (P : forall b l, 0 <= b -> forall x acc, 0 <= acc -> read_digits b l = Some x -> 0 <= fold_left (fun a d => a * b + d) x acc).
  { intros b l B. induction l as [|c l IH]; intros x acc A; cbn; [intros E; injection E as <-; exact A|].
    destruct (digit_val c) as [d|] eqn:D; [|discriminate]. destruct (read_digits b l) as [y|]; [|discriminate].
    destruct (d <? b); [|discriminate]. intros E. injection E as <-. cbn. apply IH; [|reflexivity]. apply digit_val_range in D. nia. }
  assert (R : forall v, read 10 t = Some v -> 0 <= v).
  { intros u. unfold read. destruct t as [|c r]; [discriminate|]. destruct (read_digits 10 (c :: r)) as [x|] eqn:E; [|discriminate].
    cbn [option_map]. intros X. injection X as <-. unfold value. eapply P; [| |exact E]; lia. }
  intros E. assert (X : read 10 t = Some v /\ v <= 255).
  { destruct t as [|c [|c' r]]; [discriminate| |destruct (eqb c "0"%char); [discriminate|]];
      (destruct (read 10 _) as [u|]; [|discriminate]); destruct (Z.leb_spec u 255); try discriminate; injection E as <-; auto. }
  destruct X as [X1 X2]. apply R in X1. lia.
Qed.
Lemma pton4_range s a : pton4 s = Some a -> 0 <= a < 2 ^ 32.
Proof.
  unfold pton4. destruct (split _ s) as [|t1 [|t2 [|t3 [|t4 [|]]]]]; try discriminate.
  destruct (read_octet t1) eqn:E1; [|discriminate]. destruct (read_octet t2) eqn:E2; [|discriminate].
  destruct (read_octet t3) eqn:E3; [|discriminate]. destruct (read_octet t4) eqn:E4; [|discriminate]. intros E. injection E as <-.
  apply read_octet_range in E1, E2, E3, E4. change (2 ^ 32) with 4294967296. lia.
Qed.

(** no other character than digits and dots *)
Lemma pton4_chars s c : In c s -> is_digit c = false -> c <> "."%char -> pton4 s = None.
Proof.
  intros I D N. unfold pton4. rewrite <- (join_split "."%char s) in I.
  apply In_join in I as [I|(t & I1 & I2)]; [destruct I as [I|[]]; congruence|].
  assert (R : read_octet t = None).
  { unfold read_octet. replace (forallb is_digit t) with false; [reflexivity|]. symmetry. apply not_true_is_false. intros F.
    rewrite forallb_forall in F. rewrite (F c I2) in D. discriminate. }
  destruct (split _ s) as [|t1 [|t2 [|t3 [|t4 [|]]]]]; try reflexivity.
  destruct I1 as [->|[->|[->|[->|[]]]]]; rewrite R; repeat (destruct (read_octet _); try reflexivity).
Qed.

(** ** IPv6 text *)
Definition in16 (g : Z) : Prop := 0 <= g < 65536.
Lemma groups_in16 a : Forall in16 (groups a).
Proof. unfold groups. apply Forall_forall. intros g I. apply in_map_iff in I as (k & <- & _). apply Z.mod_pos_bound. lia. Qed.

Lemma groups_value a : 0 <= a < 2 ^ 128 -> value 65536 (groups a) = a.
Proof.
  intros H. unfold groups, value. cbn [map fold_left].
  assert (S : forall k, 0 <= k -> a / 65536 ^ (k + 1) * 65536 + a / 65536 ^ k mod 65536 = a / 65536 ^ k).
  { intros k K. rewrite Z.pow_add_r, Z.pow_1_r by lia. rewrite <- Z.div_div by (try lia; apply Z.pow_pos_nonneg; lia).
    pose proof (Z.div_mod (a / 65536 ^ k) 65536 ltac:(lia)). lia. }
  assert (T : a / 65536 ^ 7 mod 65536 = a / 65536 ^ 7).
  { apply Z.mod_small. split; [apply Z.div_pos; [lia|reflexivity]|]. apply Z.div_lt_upper_bound; [reflexivity|]. exact (proj2 H). }
  rewrite T. change (0 * 65536) with 0. rewrite Z.add_0_l.
  pose proof (S 6 ltac:(lia)) as S6. pose proof (S 5 ltac:(lia)) as S5. pose proof (S 4 ltac:(lia)) as S4. pose proof (S 3 ltac:(lia)) as S3.
  pose proof (S 2 ltac:(lia)) as S2. pose proof (S 1 ltac:(lia)) as S1. pose proof (S 0 ltac:(lia)) as S0. cbn [Z.add Pos.add Pos.succ] in S6, S5, S4, S3, S2, S1, S0.
  rewrite S6, S5, S4, S3, S2, S1, S0. apply Z.div_1_r.
Qed.
Lemma groups_length a : length (groups a) = 8%nat. Proof. reflexivity. Qed.

Lemma value_bound b l : 1 < b -> Forall (fun d => 0 <= d < b) l -> 0 <= value b l < b ^ Z.of_nat (length l).
Proof.
  intros B F. induction l as [|d l IH] using rev_ind; [cbn; lia|]. apply Forall_app in F as [F1 F2]. inversion F2; subst.
  rewrite value_snoc, app_length. cbn [length]. rewrite Nat.add_1_r, Nat2Z.inj_succ, Z.pow_succ_r by lia. specialize (IH F1). nia.
Qed.

Lemma read_group_hex n : in16 n -> read_group (hex n) = Some n.
Proof.
  intros H. unfold read_group, hex. assert (length (show 16 n) <= 4)%nat by (apply show_length; [lia|exact H|lia]).
  destruct (Nat.leb_spec (length (show 16 n)) 4); [|lia]. apply read_show; unfold in16 in H; lia.
Qed.
Lemma hex_nonempty n : hex n <> []. Proof. apply show_nonempty. Qed.
Lemma hex_free n c : 0 <= n -> digit_val c = None -> ~ In c (hex n).
Proof. intros H E. apply show_free; auto; lia. Qed.

Lemma groups6_cons t r acc mark : t <> [] -> r <> [] ->
  groups6 (t :: r) acc mark = match read_group t with Some v => groups6 r (acc ++ [v]) mark | None => None end.
Proof. intros N1 N2. destruct t; [congruence|]. destruct r; [congruence|]. reflexivity. Qed.
Lemma groups6_pre pre : Forall in16 pre -> forall rest acc mark, rest <> [] ->
  groups6 (map hex pre ++ rest) acc mark = groups6 rest (acc ++ pre) mark.
Proof.
  induction 1 as [|g pre Hg F IH]; intros rest acc mark N; [cbn; now rewrite app_nil_r|]. cbn [map app].
  rewrite groups6_cons; [|apply hex_nonempty|destruct pre; [exact N|discriminate]]. rewrite read_group_hex by exact Hg.
  rewrite IH by exact N. now rewrite <- app_assoc.
Qed.
Lemma groups6_last t acc mark : groups6 [t] acc mark =
  match read_group t with
  | Some v => Some (acc ++ [v], mark)
  | None => match pton4 t with Some a => Some (acc ++ [a / 65536; a mod 65536], mark) | None => None end
  end.
Proof. destruct t; reflexivity. Qed.
Lemma groups6_suf suf : suf <> [] -> Forall in16 suf -> forall acc mark, groups6 (map hex suf) acc mark = Some (acc ++ suf, mark).
Proof.
  intros N F acc mark. destruct (exists_last N) as (l & x & ->). apply Forall_app in F as [F1 F2]. inversion F2; subst.
  rewrite map_app. rewrite groups6_pre by (auto; discriminate). cbn [map]. rewrite groups6_last, read_group_hex by assumption. now rewrite app_assoc.
Qed.
Lemma groups6_mark r acc : r <> [] -> r <> [[]] -> groups6 ([] :: r) acc None = groups6 r acc (Some (length acc)).
Proof. intros N1 N2. destruct r as [|t r]; [congruence|]. destruct t; [|reflexivity]. destruct r; [congruence|reflexivity]. Qed.
Lemma read_group_dot t : In "."%char t -> read_group t = None.
Proof. intros I. unfold read_group. destruct (Nat.leb _ 4); [|reflexivity]. eapply read_free; [|exact I]. reflexivity. Qed.
Lemma ntop4_dot a : In "."%char (ntop4 a).
Proof. unfold ntop4, octets. cbn [map join]. apply in_or_app. right. apply in_or_app. left. now left. Qed.

Lemma best_run_split : forall l i b n, best_run l i = (b, n) -> exists pre post, l = pre ++ repeat 0 n ++ post /\ b = (i + length pre)%nat.
Proof.
  induction l as [|x l IH]; intros i b n E; cbn [best_run] in E.
  - injection E as <- <-. exists [], []. cbn. split; [reflexivity|lia].
  - destruct (best_run l (S i)) as [b' n'] eqn:E'. destruct (Nat.leb n' (zero_run (x :: l))).
    + injection E as <- <-. exists []. assert (Z0 : forall m, exists post, m = repeat 0 (zero_run m) ++ post).
      { induction m as [|y m [post IHm]]; [now exists []|]. cbn. destruct y; [|now exists (Z.pos p :: m)|now exists (Z.neg p :: m)].
        exists post. cbn. now f_equal. }
      destruct (Z0 (x :: l)) as [post Ep]. exists post. split; [exact Ep|cbn; lia].
    + injection E as <- <-. destruct (IH _ _ _ E') as (pre & post & -> & ->). exists (x :: pre), post. cbn. split; [reflexivity|lia].
Qed.

Definition run_tokens (pre suf : list text) : list text :=
  (match pre with [] => [[]] | _ => pre end) ++ [[]] ++ match suf with [] => [[]] | _ => suf end.

(** the text of a compressed address reads back *)
Lemma pton6_run pre suf gs : Forall in16 pre -> Forall (fun t => ~ In ":"%char t) suf ->
  suf <> [[]] ->
  (suf <> [] -> groups6 suf pre (Some (length pre)) = Some (pre ++ gs, Some (length pre))) -> (suf = [] -> gs = []) ->
  (length pre + length gs <= 7)%nat ->
  pton6 (join (tx ":") (map hex pre) ++ tx "::" ++ join (tx ":") suf)
  = Some (value 65536 (pre ++ repeat 0 (8 - length (pre ++ gs)) ++ gs)).
Proof.
  intros Fp Fs Ns G Ge L. change (tx ":") with [":"%char].
  assert (Sfx : groups6 ([] :: match suf with [] => [[]] | _ => suf end) pre None = Some (pre ++ gs, Some (length pre))).
  { destruct suf as [|t suf].
    - rewrite Ge by reflexivity. now rewrite app_nil_r.
    - rewrite groups6_mark; [|discriminate|exact Ns]. apply G. discriminate. }
  assert (Ex : option_map (value 65536) (expand6 (pre ++ gs) (Some (length pre))) = Some (value 65536 (pre ++ repeat 0 (8 - length (pre ++ gs)) ++ gs))).
  { unfold expand6. destruct (Nat.leb_spec (length (pre ++ gs)) 7) as [_|X]; [|rewrite app_length in X; lia].
    rewrite firstn_app, Nat.sub_diag, firstn_all, skipn_app, skipn_all, Nat.sub_diag. cbn [firstn skipn]. now rewrite app_nil_r. }
  assert (Fs' : Forall (fun t => ~ In ":"%char t) match suf with [] => [[]] | _ => suf end).
  { destruct suf; [repeat constructor; tauto|exact Fs]. }
  assert (Js : join [":"%char] suf = join [":"%char] match suf with [] => [[]] | _ => suf end) by now destruct suf.
  assert (Fh : Forall (fun t => ~ In ":"%char t) (map hex pre)).
  { apply Forall_forall. intros t I. apply in_map_iff in I as (n & <- & I). rewrite Forall_forall in Fp. apply Fp in I. unfold in16 in I.
    apply hex_free; [lia|reflexivity]. }
  destruct pre as [|g pre].
  - cbn [map join app]. change (tx "::" ++ join [":"%char] suf) with (":"%char :: ":"%char :: join [":"%char] suf).
    unfold pton6. change (eqb ":"%char ":"%char) with true. cbv iota beta.
    replace (":"%char :: join [":"%char] suf) with (join [":"%char] ([] :: match suf with [] => [[]] | _ => suf end)).
    2: { rewrite join_cons by (destruct suf; discriminate). cbn [app]. now rewrite Js. }
    rewrite split_join; [|discriminate|constructor; [tauto|exact Fs']]. rewrite Sfx. exact Ex.
  - set (s := join _ (map hex (g :: pre)) ++ _ ++ _).
    assert (Es : s = join [":"%char] (map hex (g :: pre) ++ [] :: match suf with [] => [[]] | _ => suf end)).
    { unfold s. rewrite join_app by discriminate. rewrite (join_cons _ []) by (destruct suf; discriminate). cbn [app]. now rewrite Js. }
    assert (H0 : exists c r, s = c :: r /\ c <> ":"%char).
    { inversion Fp as [|? ? Hg Fp']; subst. unfold s. cbn [map]. destruct (hex g) as [|c r] eqn:Eh; [now apply hex_nonempty in Eh|].
      destruct (map hex pre); cbn [join app]; eexists; eexists; (split; [reflexivity|]); intros ->;
        (apply (hex_free g ":"%char); [unfold in16 in Hg; lia|reflexivity|rewrite Eh; now left]). }
    destruct H0 as (c & r & Ec & Nc). unfold pton6. rewrite Ec at 1. apply eqb_neq in Nc. rewrite Nc. rewrite Es.
    rewrite split_join; [|destruct pre; discriminate|].
    + rewrite groups6_pre by (auto; discriminate). cbn [app]. rewrite Sfx. exact Ex.
    + apply Forall_app. split; [exact Fh|]. constructor; [tauto|exact Fs'].
Qed.

Lemma mod_groups a : 0 <= a < 2 ^ 128 -> [a mod 4294967296 / 65536; a mod 4294967296 mod 65536] = [a / 65536 ^ 1 mod 65536; a / 65536 ^ 0 mod 65536].
Proof.
  intros H. change (65536 ^ 1) with 65536. change (65536 ^ 0) with 1. rewrite Z.div_1_r. change 4294967296 with (65536 * 65536).
  f_equal; [|f_equal].
  - rewrite Z.rem_mul_r by lia. rewrite Z.mul_comm, Z.div_add by lia. rewrite (Z.div_small (a mod 65536)); [lia|]. apply Z.mod_pos_bound. lia.
  - rewrite Z.rem_mul_r by lia. rewrite Z.mul_comm, Z.mod_add by lia. apply Z.mod_mod. lia.
Qed.

Lemma pton6_ntop6 a : 0 <= a < 2 ^ 128 -> pton6 (ntop6 a) = Some a.
Proof.
  intros H. unfold ntop6. pose proof (groups_in16 a) as F. pose proof (groups_length a) as L. pose proof (groups_value a H) as V.
  destruct (best_run (groups a) 0) as [b n] eqn:E. destruct (best_run_split _ _ _ _ E) as (pre & post & Eg & ->). cbn [Nat.add].
  assert (Lg : (length pre + (n + length post) = 8)%nat) by (rewrite <- L, Eg, !app_length, repeat_length; reflexivity).
  destruct (Nat.leb_spec 2 n) as [N|N].
  - assert (F' : Forall in16 pre /\ Forall in16 post).
    { rewrite Eg in F. apply Forall_app in F as [F1 F2]. apply Forall_app in F2 as [_ F2]. auto. } destruct F' as [Fp Fq].
    assert (Epre : firstn (length pre) (groups a) = pre) by (rewrite Eg, firstn_app, Nat.sub_diag, firstn_all; apply app_nil_r).
    assert (Epost : skipn (length pre + n) (groups a) = post).
    { rewrite Eg, app_assoc. replace (length pre + n)%nat with (length (pre ++ repeat 0 n)) by (rewrite app_length, repeat_length; reflexivity).
      now rewrite skipn_app, skipn_all, Nat.sub_diag. }
    assert (Fin : pre ++ repeat 0 (8 - length (pre ++ post)) ++ post = groups a).
    { rewrite Eg. do 3 f_equal. rewrite app_length. lia. }
    rewrite Epre. destruct (Nat.eqb (length pre) 0 && _) eqn:D.
    + (* embedded dotted address *)
      apply andb_true_iff in D as [D1 D2]. apply Nat.eqb_eq in D1. destruct pre; [|discriminate]. cbn [length Nat.add app] in *. cbn [map].
      set (x := a mod 4294967296). assert (Hx : 0 <= x < 2 ^ 32) by (apply Z.mod_pos_bound; lia).
      assert (Tail : exists front, post = front ++ [x / 65536; x mod 65536] /\ map hex (firstn (6 - n) (skipn n (groups a))) = map hex front).
      { assert (Last : exists f, groups a = f ++ [x / 65536; x mod 65536] /\ length f = 6%nat).
        { unfold x. rewrite mod_groups by exact H. exists (firstn 6 (groups a)). split; reflexivity. }
        destruct Last as (f & Ef & Lf). rewrite Epost. assert (n = 6 \/ n = 5)%nat as Nn by (destruct (Nat.eqb_spec n 6), (Nat.eqb_spec n 5); auto; cbn in D2; congruence).
        exists (skipn n f). assert (Ep : post = skipn n f ++ [x / 65536; x mod 65536]).
        { rewrite <- Epost, Ef. rewrite skipn_app. replace (n - length f)%nat with O by lia. reflexivity. }
        split; [exact Ep|]. rewrite Ep. f_equal. rewrite firstn_app. replace (length (skipn n f)) with (6 - n)%nat by (rewrite skipn_length; lia).
        rewrite Nat.sub_diag. cbn [firstn]. rewrite app_nil_r. apply firstn_all2. rewrite skipn_length. lia. }
      destruct Tail as (front & Ep & ->). rewrite Ep in Fq. apply Forall_app in Fq as [Fq1 Fq2].
      change (join (tx ":") []) with (join (tx ":") (map hex [])).
      rewrite (pton6_run [] (map hex front ++ [ntop4 x]) post).
      * cbn [app]. rewrite <- Fin in V. cbn [app] in V. now rewrite V.
      * constructor.
      * apply Forall_app. split.
        -- apply Forall_forall. intros t I. apply in_map_iff in I as (m & <- & I). rewrite Forall_forall in Fq1. apply Fq1 in I. unfold in16 in I.
           apply hex_free; [lia|reflexivity].
        -- constructor; [|constructor]. intros I. apply pton4_chars in I; [|reflexivity|discriminate]. rewrite pton4_ntop4 in I by exact Hx. discriminate.
      * intros X. destruct front as [|y front]; cbn [map app] in X.
        -- apply (f_equal (fun l => hd [] l)) in X. cbn [hd] in X. pose proof (ntop4_dot x) as Y. rewrite X in Y. destruct Y.
        -- apply (f_equal (@length text)) in X. cbn [length] in X. rewrite app_length in X. cbn in X. lia.
      * intros _. rewrite groups6_pre by (auto; discriminate). rewrite groups6_last.
        rewrite read_group_dot by apply ntop4_dot. rewrite pton4_ntop4 by exact Hx. cbn [app length]. now rewrite Ep.
      * intros X. destruct front; discriminate.
      * cbn. lia.
    + rewrite Epost. rewrite (pton6_run pre (map hex post) post).
      * now rewrite Fin, V.
      * exact Fp.
      * apply Forall_forall. intros t I. apply in_map_iff in I as (m & <- & I). rewrite Forall_forall in Fq. apply Fq in I. unfold in16 in I.
        apply hex_free; [lia|reflexivity].
      * intros X. destruct post as [|y post]; [discriminate|]. cbn in X. injection X as X _. now apply hex_nonempty in X.
      * intros X. apply groups6_suf; [intros ->; now apply X|exact Fq].
      * intros X. now apply map_eq_nil in X.
      * lia.
  - set (s := join (tx ":") (map hex (groups a))).
    assert (H0 : exists c r, s = c :: r /\ c <> ":"%char).
    { unfold s, groups. cbn [map]. match goal with |- context [hex ?g :: _] => destruct (hex g) as [|c r] eqn:Eh; [now apply hex_nonempty in Eh|] end.
      cbn [join app]. eexists; eexists; split; [reflexivity|]. intros ->. revert Eh.
      match goal with |- hex ?g = _ -> _ => intros Eh; apply (hex_free g ":"%char); [apply Z.mod_pos_bound; lia|reflexivity|rewrite Eh; now left] end. }
    destruct H0 as (c & r & Ec & Nc). unfold pton6. rewrite Ec at 1. apply eqb_neq in Nc. rewrite Nc. unfold s.
    change (tx ":") with [":"%char]. rewrite split_join; [|discriminate|].
    + rewrite groups6_suf by (try discriminate; exact F). cbn [app]. unfold expand6. rewrite L. cbn [Nat.eqb option_map]. now rewrite V.
    + apply Forall_forall. intros t I. apply in_map_iff in I as (m & <- & I). rewrite Forall_forall in F. apply F in I. unfold in16 in I.
      apply hex_free; [lia|reflexivity].
Qed.

Lemma ntop6_colon a : In ":"%char (ntop6 a).
Proof.
  unfold ntop6. destruct (best_run (groups a) 0) as [b n]. destruct (Nat.leb 2 n).
  - apply in_or_app. right. apply in_or_app. left. now left.
  - unfold groups. cbn [map join]. apply in_or_app. right. apply in_or_app. left. now left.
Qed.
Lemma pton4_ntop6 a : pton4 (ntop6 a) = None.
Proof. eapply pton4_chars; [apply ntop6_colon|reflexivity|discriminate]. Qed.
