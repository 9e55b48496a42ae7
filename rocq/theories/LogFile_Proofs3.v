(** UTF-16LE. *)
From Verif Require Import Base Text LogFile_Model LogFile_Spec LogFile_Proofs LogFile_Proofs2.
From Coq Require Import Lia List ZifyBool ZifyNat.
Local Open Scope nat_scope.
Import ListNotations.

Definition code (lo hi : ascii) : Z := (Z.of_N (N_of_ascii lo) + 256 * Z.of_N (N_of_ascii hi))%Z.
Fixpoint next_u (b : bytes) : option (chars * nat) :=
  match b with
  | lo :: hi :: r =>
      if (code lo hi =? 10)%Z then Some ([], 2) else match next_u r with Some (l, n) => Some (code lo hi :: l, S (S n)) | None => None end
  | _ => None
  end.
Lemma pair_ind : forall P : bytes -> Prop, P [] -> (forall c, P [c]) -> (forall lo hi r, P r -> P (lo :: hi :: r)) -> forall b, P b.
Proof.
  intros P H0 H1 H2. fix IH 1. intros [|lo [|hi r]]; [exact H0|apply H1|apply H2; apply IH].
Qed.
Lemma byte_range : forall c, (0 <= Z.of_N (N_of_ascii c) < 256)%Z.
Proof. intros c. pose proof (N_ascii_bounded c). lia. Qed.
Lemma byte_val : forall c n, (n < 256)%N -> N_of_ascii c = n -> c = ascii_of_N n.
Proof. intros c n H <-. symmetry. apply ascii_N_embedding. Qed.
Lemma code_range : forall lo hi, (0 <= code lo hi < 65536)%Z.
Proof. intros. unfold code. pose proof (byte_range lo). pose proof (byte_range hi). lia. Qed.
Lemma code_mod : forall lo hi, (code lo hi mod 256 = Z.of_N (N_of_ascii lo))%Z.
Proof. intros. unfold code. pose proof (byte_range lo). rewrite Z.mul_comm, Z.mod_add by lia. apply Z.mod_small. lia. Qed.
Lemma code_div : forall lo hi, (code lo hi / 256 = Z.of_N (N_of_ascii hi))%Z.
Proof. intros. unfold code. pose proof (byte_range lo). rewrite Z.mul_comm, Z.div_add by lia. rewrite Z.div_small by lia. lia. Qed.
Lemma enc_code : forall lo hi r, enc_utf16 (code lo hi :: r) = lo :: hi :: enc_utf16 r.
Proof.
  intros. unfold enc_utf16. cbn [flat_map]. rewrite code_mod, code_div, !N2Z.id, !ascii_N_embedding. reflexivity.
Qed.
Lemma code_enc : forall z, (0 <= z < 65536)%Z ->
  code (ascii_of_N (Z.to_N (z mod 256))) (ascii_of_N (Z.to_N (z / 256))) = z.
Proof.
  intros z H. unfold code.
  assert (0 <= z mod 256 < 256)%Z by (apply Z.mod_pos_bound; lia).
  assert (0 <= z / 256 < 256)%Z by (split; [apply Z.div_pos; lia|apply Z.div_lt_upper_bound; lia]).
  rewrite !N_ascii_embedding by lia. rewrite !Z2N.id by lia. pose proof (Z.div_mod z 256). lia.
Qed.
Lemma code_10 : forall lo hi, code lo hi = 10%Z -> lo = LF.
Proof.
  intros lo hi H. pose proof (code_mod lo hi) as M. rewrite H in M. change (10 mod 256)%Z with 10%Z in M.
  apply (byte_val lo 10); lia.
Qed.
Lemma code_13 : forall lo hi, code lo hi = 13%Z -> lo = CR.
Proof.
  intros lo hi H. pose proof (code_mod lo hi) as M. rewrite H in M. change (13 mod 256)%Z with 13%Z in M.
  apply (byte_val lo 13); lia.
Qed.
Lemma enc_app : forall a b, enc_utf16 (a ++ b) = enc_utf16 a ++ enc_utf16 b.
Proof. intros. unfold enc_utf16. now rewrite flat_map_app. Qed.
Lemma enc_length : forall a, length (enc_utf16 a) = 2 * length a.
Proof. unfold enc_utf16. induction a; cbn [flat_map app length] in *; lia. Qed.
Lemma enc_skipn : forall k t, skipn (2 * k) (enc_utf16 t) = enc_utf16 (skipn k t).
Proof.
  induction k; intros t; [reflexivity|]. destruct t; [reflexivity|].
  replace (2 * S k) with (S (S (2 * k))) by lia. cbn [skipn]. rewrite <- IHk. reflexivity.
Qed.

(** ** next line *)
Lemma u_some : forall b l n, next_u b = Some (l, n) ->
  n = 2 * (length l + 1) /\ n <= length b /\ firstn n b = enc_utf16 (l ++ [10%Z]) /\ ~ In 10%Z l
  /\ dec_utf16 b = l ++ 10%Z :: dec_utf16 (skipn n b) /\ (forall z, In z l -> (0 <= z < 65536)%Z)
  /\ forall x, next_u (b ++ x) = Some (l, n).
Proof.
  induction b as [| |lo hi r IH] using pair_ind; intros l n H; try discriminate.
  cbn [next_u] in H. destruct (Z.eqb_spec (code lo hi) 10) as [E|N].
  - injection H as <- <-. cbn [length firstn skipn app].
    repeat (split; [solve [lia|auto]|]).
    split; [rewrite <- E, enc_code; reflexivity|]. split; [auto|].
    split; [cbn [dec_utf16]; fold (code lo hi); now rewrite E|]. split; [intros z []|].
    intros x. cbn [next_u]. now rewrite E.
  - destruct (next_u r) as [[l1 n1]|] eqn:R; [|discriminate]. injection H as <- <-.
    destruct (IH _ _ eq_refl) as (E1 & E2 & E3 & E4 & E5 & E6 & E7).
    cbn [length firstn skipn app]. 
    split; [lia|]. split; [cbn; lia|].
    split; [now rewrite E3, enc_code|].
    split; [intros [X|X]; auto|].
    split; [cbn [dec_utf16]; fold (code lo hi); now rewrite E5|].
    split; [intros z [<-|Z]; [apply code_range|auto]|].
    intros x. cbn [next_u]. apply Z.eqb_neq in N. rewrite N, E7. reflexivity.
Qed.
Lemma u_none : forall b, next_u b = None -> ~ In CR b -> forall z, In z (dec_utf16 b) -> z <> 10%Z /\ z <> 13%Z.
Proof.
  induction b as [|c|lo hi r IH] using pair_ind; intros H C z Z; [destruct Z| |].
  - cbn in Z. destruct (Ascii.eqb c LF || Ascii.eqb c CR); [destruct Z|]. destruct Z as [<-|[]]. lia.
  - cbn [next_u] in H. destruct (Z.eqb_spec (code lo hi) 10) as [E|N]; [discriminate|].
    destruct (next_u r) as [[]|]; [discriminate|]. cbn [dec_utf16] in Z. fold (code lo hi) in Z. destruct Z as [<-|Z].
    + split; [exact N|]. intros E. apply code_13 in E. apply C. now left.
    + apply IH; auto. intros I. apply C. now right; right.
Qed.
Lemma u_cr : forall b l n, next_u b = Some (l, n) -> ~ In CR b -> ~ In 13%Z l.
Proof.
  induction b as [| |lo hi r IH] using pair_ind; intros l n H C; try discriminate.
  cbn [next_u] in H. destruct (Z.eqb_spec (code lo hi) 10) as [E|N]; [injection H as <- <-; auto|].
  destruct (next_u r) as [[l1 n1]|] eqn:R; [|discriminate]. injection H as <- <-.
  intros [X|X].
  - apply code_13 in X. apply C. now left.
  - eapply IH; eauto. intros I. apply C. now right; right.
Qed.
(** no line begins with the byte LF *)
Fixpoint okf (b : bytes) : Prop :=
  match b with
  | lo :: hi :: r => (code lo hi = 10%Z -> match r with c :: _ => c <> LF | [] => True end) /\ okf r
  | _ => True
  end.
Lemma okf_next : forall b l n, okf b -> next_u b = Some (l, n) -> match skipn n b with c :: _ => c <> LF | [] => True end.
Proof.
  induction b as [| |lo hi r IH] using pair_ind; intros l n O H; try discriminate.
  cbn [next_u] in H. destruct O as [O1 O2]. destruct (Z.eqb_spec (code lo hi) 10) as [E|N].
  - injection H as <- <-. cbn [skipn]. exact (O1 E).
  - destruct (next_u r) as [[l1 n1]|] eqn:R; [|discriminate]. injection H as <- <-. cbn [skipn]. exact (IH _ _ O2 eq_refl).
Qed.
Lemma okf_prefix : forall b x, okf (b ++ x) -> okf b.
Proof.
  induction b as [| |lo hi r IH] using pair_ind; intros x O; try exact I.
  destruct O as [O1 O2]. split; [|eauto]. intros E. specialize (O1 E). destruct r; auto.
Qed.
Lemma find_nl_app : forall l y, ~ In 10%Z l -> find_nl (l ++ 10%Z :: y) = Some (length l).
Proof.
  induction l as [|c l IH]; intros y N; [reflexivity|]. cbn. destruct (Z.eqb_spec c 10) as [->|]; [destruct N; now left|].
  rewrite IH; [reflexivity|]. intros I. apply N. now right.
Qed.
Lemma find_nl_none : forall l, (forall z, In z l -> z <> 10%Z) -> find_nl l = None.
Proof.
  induction l as [|c l IH]; intros N; [reflexivity|]. cbn. destruct (Z.eqb_spec c 10) as [->|]; [now destruct (N 10%Z (or_introl eq_refl))|].
  rewrite IH; [reflexivity|]. intros z Z. apply N. now right.
Qed.
Lemma rstrip_id : forall l, (forall z, In z l -> z <> 10%Z /\ z <> 13%Z) -> rstrip l = l.
Proof.
  intros l H. destruct (eqb_spec (rstrip l) l) as [E|N]; [exact E|]. apply rstrip_same in N.
  destruct N as (y & z & -> & Z). destruct (H z); [apply in_or_app; right; now left|]. lia.
Qed.
Lemma rstrip_10 : forall l, ~ In 10%Z l -> ~ In 13%Z l -> rstrip (l ++ [10%Z]) = l.
Proof.
  intros l N M. eapply trimmed_fun; [apply rstrip_trimmed|]. exists [10%Z]. split; [reflexivity|]. split.
  - intros c [<-|[]]. now left.
  - intros x c ->. split; intros ->; [apply N|apply M]; apply in_or_app; right; now left.
Qed.
Lemma dec_nonempty : forall c z, c <> LF -> c <> CR -> dec_utf16 (c :: z) <> [].
Proof.
  intros c [|d z] N M; [|discriminate]. cbn. destruct (Ascii.eqb_spec c LF); [congruence|]. now destruct (Ascii.eqb_spec c CR).
Qed.

Lemma fill_u : forall fuel d start p b, next_u b = None -> p = start + length b ->
  skipn start d = b ++ skipn p d -> length (skipn p d) <= fuel -> ~ In CR (skipn start d) -> okf (skipn start d) ->
  fill dec_utf16 enc_utf16 fuel d start p b
  = match next_u (skipn start d) with Some (l, n) => (Some l, start + n) | None => (None, start) end.
Proof.
  induction fuel as [|fuel IH]; intros d start p b Nb Ep Er Hf C O.
  - destruct (skipn p d) as [|c r] eqn:R; [|cbn in Hf; lia]. rewrite app_nil_r in Er. now rewrite Er, Nb.
  - cbn [fill]. unfold read_raw. destruct (raw_line_prefix (skipn p d)) as [z Z].
    destruct (raw_line (skipn p d)) as [|c more] eqn:R.
    + destruct (skipn p d) as [|c r] eqn:R'; [|cbn in R; destruct (Ascii.eqb c LF); discriminate].
      rewrite app_nil_r in Er. now rewrite Er, Nb.
    + rewrite <- R in *. set (raw := raw_line (skipn p d)) in *.
      assert (Er' : skipn start d = (b ++ raw) ++ z) by (rewrite Er, Z, <- app_assoc; reflexivity).
      assert (Sk : skipn (p + length raw) d = z).
      { rewrite skipn_add, Z, skipn_app, skipn_all, Nat.sub_diag. reflexivity. }
      assert (C' : ~ In CR (b ++ raw)). { intros X. apply C. rewrite Er'. apply in_or_app. now left. }
      assert (O' : okf (b ++ raw)). { rewrite Er' in O. now apply okf_prefix in O. }
      destruct (next_u (b ++ raw)) as [[l n]|] eqn:Nx.
      * destruct (u_some _ _ _ Nx) as (E1 & E2 & E3 & E4 & E5 & E6 & E7).
        rewrite Er', E7. rewrite E5, find_nl_app by assumption.
        rewrite app_length. cbn [length].
        pose proof (okf_next _ _ _ O' Nx) as Ok.
        destruct (skipn n (b ++ raw)) as [|c' z'] eqn:Sn.
        -- cbn [dec_utf16 length]. replace (length l =? length l + 1 - 1) with true by (symmetry; apply Nat.eqb_eq; lia).
           rewrite rstrip_10; [|assumption|eapply u_cr; eauto].
           assert (Ne : eqb l (l ++ [10%Z]) = false).
           { apply eqb_neq. intros X. apply (f_equal (@length BinNums.Z)) in X. rewrite app_length in X. cbn in X. lia. }
           rewrite Ne. f_equal. subst p. 
           assert (length (b ++ raw) = n). { apply (f_equal (@length ascii)) in Sn. rewrite skipn_length in Sn. cbn in Sn. lia. }
           rewrite app_length in H. lia.
        -- assert (Cc : c' <> CR). { intros ->. apply C'. rewrite <- (firstn_skipn n (b ++ raw)), Sn. apply in_or_app. right. now left. }
           pose proof (dec_nonempty c' z' Ok Cc) as Nd. destruct (dec_utf16 (c' :: z')) as [|y ys] eqn:Dd; [congruence|].
           replace (length l =? length l + S (length (y :: ys)) - 1) with false by (symmetry; apply Nat.eqb_neq; cbn; lia).
           f_equal.
           ++ f_equal. rewrite firstn_app, firstn_all, Nat.sub_diag. cbn. apply app_nil_r.
           ++ rewrite enc_length, firstn_length, app_length. cbn [length]. lia.
      * pose proof (u_none _ Nx C') as Un.
        rewrite find_nl_none by (intros y Y; now apply Un in Y).
        rewrite rstrip_id, eqb_refl by exact Un.
        apply IH; auto.
        -- rewrite app_length. lia.
        -- now rewrite Sk.
        -- rewrite Sk. rewrite Z, app_length in Hf. assert (L : length raw = S (length more)) by now rewrite R. lia.
Qed.
Lemma no_lf_u : forall b, ~ In LF b -> next_u b = None.
Proof.
  induction b as [| |lo hi r IH] using pair_ind; intros N; auto.
  cbn. destruct (Z.eqb_spec (code lo hi) 10) as [E|]; [apply code_10 in E; subst; destruct N; now left|].
  rewrite IH; auto. intros I. apply N. now right; right.
Qed.
Lemma one_lf_u : forall b, ~ In LF b -> next_u (b ++ [LF]) = None.
Proof.
  induction b as [|c|lo hi r IH] using pair_ind; intros N; auto.
  - cbn. destruct (Z.eqb_spec (code c LF) 10) as [E|]; [apply code_10 in E; subst; destruct N; now left|reflexivity].
  - cbn. destruct (Z.eqb_spec (code lo hi) 10) as [E|]; [apply code_10 in E; subst; destruct N; now left|].
    rewrite IH; auto. intros I. apply N. now right; right.
Qed.
Lemma read_u : forall d p, ~ In CR (skipn p d) -> okf (skipn p d) ->
  readline dec_utf16 enc_utf16 d p = match next_u (skipn p d) with Some (l, n) => (Some l, p + n) | None => (None, p) end.
Proof.
  intros d p C O. unfold readline, read_raw. destruct (raw_line_prefix (skipn p d)) as [z Z].
  assert (Nx : next_u (raw_line (skipn p d)) = None).
  { destruct (in_LF_dec (skipn p d)) as [I|N].
    - destruct (raw_line_split _ I) as (x & r & _ & Nx & ->). now apply one_lf_u.
    - rewrite raw_line_no by assumption. now apply no_lf_u. }
  destruct (raw_line (skipn p d)) as [|c more] eqn:R.
  - destruct (skipn p d) as [|c r]; [reflexivity|]. cbn in R. destruct (Ascii.eqb c LF); discriminate.
  - rewrite <- R in *.
    assert (C' : ~ In CR (raw_line (skipn p d))). { intros X. apply C. rewrite Z. apply in_or_app. now left. }
    rewrite rstrip_id, eqb_refl by (now apply u_none).
    apply fill_u; auto.
    + assert (Sk : skipn (p + length (raw_line (skipn p d))) d = z); [|now rewrite Sk].
      rewrite skipn_add. generalize (raw_line (skipn p d)) Z. intros raw ->. rewrite skipn_app, skipn_all, Nat.sub_diag. reflexivity.
    + rewrite skipn_length. lia.
Qed.

(** ** the condition on the content *)
Lemma enc_bytes : forall t, (forall z, In z t -> 0 <= z < 65536 /\ z mod 256 <> 13 /\ z / 256 <> 13)%Z -> ~ In CR (enc_utf16 t).
Proof.
  intros t H I. unfold enc_utf16 in I. apply in_flat_map in I. destruct I as (z & Z & I).
  destruct (H z Z) as (R & A & B).
  assert (0 <= z mod 256 < 256)%Z by (apply Z.mod_pos_bound; lia).
  assert (0 <= z / 256 < 256)%Z by (split; [apply Z.div_pos; lia|apply Z.div_lt_upper_bound; lia]).
  destruct I as [I|[I|[]]]; apply (f_equal N_of_ascii) in I; rewrite N_ascii_embedding in I by lia; cbn in I; lia.
Qed.
Lemma plain_okf : forall t, plain_text t -> okf (enc_utf16 t).
Proof.
  induction t as [|z t IH]; intros [A B]; [exact I|].
  assert (P : plain_text t).
  { split; [intros y Y; apply A; now right|]. intros t1 y t2 ->. apply (B (z :: t1) y t2). reflexivity. }
  cbn [enc_utf16 flat_map app okf]. fold (enc_utf16 t). split; [|auto].
  destruct (A z (or_introl eq_refl)) as [R _]. rewrite code_enc by lia. intros ->.
  destruct t as [|y t]; [exact I|]. cbn [enc_utf16 flat_map app]. intros X.
  apply (B [] y t eq_refl). apply (f_equal N_of_ascii) in X.
  assert (0 <= y mod 256 < 256)%Z by (apply Z.mod_pos_bound; lia).
  rewrite N_ascii_embedding in X by lia. cbn in X. lia.
Qed.
Lemma utf16_ok : forall d, utf16_text d -> ~ In CR d /\ okf d.
Proof.
  intros d (t & more & E & P). split.
  - intros I. apply (enc_bytes t); [apply P|]. rewrite <- E. apply in_or_app. now left.
  - apply (okf_prefix _ more). rewrite E. now apply plain_okf.
Qed.

Lemma u_nil : utf16_text [].
Proof. exists [], []. split; [reflexivity|]. split; [intros z []|]. intros [|] ? ?; discriminate. Qed.
Lemma u_read : forall d p, utf16_text (skipn p d) ->
  readline dec_utf16 enc_utf16 d p = match next_u (skipn p d) with Some (l, n) => (Some l, p + n) | None => (None, p) end.
Proof. intros d p H. apply utf16_ok in H. destruct H. now apply read_u. Qed.
Lemma u_len : forall r l n, next_u r = Some (l, n) -> 0 < n <= length r.
Proof. intros r l n H. apply u_some in H. lia. Qed.
Lemma u_app : forall r l n x, next_u r = Some (l, n) -> next_u (r ++ x) = Some (l, n).
Proof. intros r l n x H. apply u_some in H. now destruct H as (_ & _ & _ & _ & _ & _ & ->). Qed.
Lemma u_good_next : forall r l n, utf16_text r -> next_u r = Some (l, n) -> utf16_text (skipn n r).
Proof.
  intros r l n (t & more & E & A & B) H. apply u_some in H. destruct H as (E1 & E2 & _).
  exists (skipn (length l + 1) t), more. split.
  - rewrite <- enc_skipn, <- E1, <- E. symmetry. now apply skipn_app_le.
  - split.
    + intros z Z. apply A. rewrite <- (firstn_skipn (length l + 1) t). apply in_or_app. now right.
    + intros t1 z t2 X. apply (B (firstn (length l + 1) t ++ t1) z t2). rewrite <- app_assoc, <- X. symmetry. apply firstn_skipn.
Qed.
Lemma u_good_cr : forall r, utf16_text r -> ends_line (raw_line r) = true -> In LF r.
Proof.
  intros r G H. apply utf16_ok in G. destruct G as [G _]. apply a_cr; [|assumption]. intros x ->. apply G. apply in_or_app. right. now left.
Qed.

Lemma u_prefix : forall r ls m, Path next_u r ls m -> exists rest',
  r = enc_utf16 (concat (map (fun l => l ++ [10%Z]) ls)) ++ rest' /\ length (enc_utf16 (concat (map (fun l => l ++ [10%Z]) ls))) = m
  /\ (forall l, In l ls -> ~ In 10%Z l /\ forall z, In z l -> (0 <= z < 65536)%Z) /\ rest' = skipn m r.
Proof.
  induction 1 as [r|r l n ls m N P IH].
  - exists r. repeat split; auto; destruct H.
  - apply u_some in N. destruct N as (E1 & E2 & E3 & E4 & _ & E6 & _).
    destruct IH as (rest' & E & Em & Hl & Es). exists rest'. cbn [map concat]. rewrite enc_app, <- app_assoc. repeat split.
    + rewrite <- E, <- E3. symmetry. apply firstn_skipn.
    + rewrite app_length, Em, enc_length, app_length. cbn. lia.
    + destruct H as [<-|H]; [exact E4|]. now apply Hl.
    + destruct H as [<-|H]; [eapply E6; eauto|]. eapply Hl; eauto.
    + destruct H as [<-|H]; [eapply E6; eauto|]. eapply Hl; eauto.
    + rewrite skipn_add. exact Es.
Qed.
Lemma u_none_iff : forall r t more, next_u r = None -> r = enc_utf16 t ++ more -> (forall z, In z t -> (0 <= z < 65536)%Z) -> ~ In 10%Z t.
Proof.
  intros r t. revert r. induction t as [|z t IH]; intros r more N E R; [auto|].
  rewrite E in N. cbn [enc_utf16 flat_map app next_u] in N. rewrite code_enc in N by (apply R; now left).
  destruct (Z.eqb_spec z 10) as [->|Nz]; [discriminate|].
  intros [X|X]; [congruence|].
  apply (IH (enc_utf16 t ++ more) more); auto.
  - fold (enc_utf16 t) in N. destruct (next_u (enc_utf16 t ++ more)) as [[]|]; [discriminate|reflexivity].
  - intros y Y. apply R. now right.
Qed.
