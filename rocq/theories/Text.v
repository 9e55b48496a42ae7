(** Shared vocabulary: texts as lists of characters, Python's split and join on one character,
    numbers in a base.  Characters are bytes; a Python [\d] or [int()] also takes other decimal
    digits of Unicode, which are left out here. *)
From Verif Require Import Base.
From Coq Require Import ZifyBool ZifyNat.

Definition text := list ascii.
Definition tx (s : string) : text := list_ascii_of_string s.

(** Python: s.split(c) *)
Fixpoint split (c : ascii) (s : text) : list text :=
  match s with
  | [] => [[]]
  | x :: r => if eqb x c then [] :: split c r
              else match split c r with
                   | [] => [[x]]
                   | t :: ts => (x :: t) :: ts
                   end
  end.

(** Python: sep.join(l) *)
Fixpoint join (sep : text) (l : list text) : text :=
  match l with
  | [] => []
  | [t] => t
  | t :: r => t ++ sep ++ join sep r
  end.

Lemma split_nonempty c s : split c s <> [].
Proof. destruct s as [|x r]; cbn; [discriminate|]. destruct (eqb x c); [discriminate|]. now destruct (split c r). Qed.

Lemma split_free c s : ~ In c s -> split c s = [s].
Proof.
  induction s as [|x r IH]; intros N; [reflexivity|]. cbn. destruct (eqb_spec x c) as [->|E]; [destruct N; now left|].
  rewrite IH; [reflexivity|]. intros I. apply N. now right.
Qed.

Lemma split_app c a b : ~ In c a -> split c (a ++ c :: b) = a :: split c b.
Proof.
  induction a as [|x a IH]; intros N; cbn.
  - now rewrite eqb_refl.
  - destruct (eqb_spec x c) as [->|E]; [destruct N; now left|]. rewrite IH; [reflexivity|]. intros I. apply N. now right.
Qed.

Lemma split_join c l : l <> [] -> Forall (fun t => ~ In c t) l -> split c (join [c] l) = l.
Proof.
  induction l as [|t l IH]; [congruence|]. intros _ F. inversion F as [|? ? F1 F2]; subst.
  destruct l as [|t' l].
  - cbn. now apply split_free.
  - change (join [c] (t :: t' :: l)) with (t ++ c :: join [c] (t' :: l)). rewrite (split_app c t _ F1). f_equal. apply IH; [discriminate|exact F2].
Qed.

Lemma join_split c s : join [c] (split c s) = s.
Proof.
  induction s as [|x r IH]; [reflexivity|]. cbn. destruct (eqb_spec x c) as [->|E].
  - destruct (split c r) as [|t ts] eqn:S; [now apply split_nonempty in S|]. cbn [join app] in *. now rewrite IH.
  - destruct (split c r) as [|t ts] eqn:S; [now apply split_nonempty in S|]. rewrite <- IH. destruct ts; reflexivity.
Qed.

Lemma split_tokens_free c s : Forall (fun t => ~ In c t) (split c s).
Proof.
  induction s as [|x r IH]; cbn; [constructor; [tauto|constructor]|]. destruct (eqb_spec x c) as [->|E].
  - constructor; [tauto|exact IH].
  - destruct (split c r) as [|t ts]; [constructor; [|constructor]|].
    + intros [I|[]]. congruence.
    + inversion IH; subst. constructor; [|assumption]. intros [I|I]; [congruence|contradiction].
Qed.

Lemma In_join c sep l : In c (join sep l) -> In c sep \/ exists t, In t l /\ In c t.
Proof.
  induction l as [|t l IH]; cbn; [tauto|]. destruct l as [|t' l].
  - intros I. right. exists t. auto.
  - rewrite !in_app_iff. intros [I|[I|I]]; [right; exists t; auto|auto|]. apply IH in I as [I|(u & I1 & I2)]; [auto|]. right. exists u. split; [now right|exact I2].
Qed.

Lemma join_cons sep t l : l <> [] -> join sep (t :: l) = t ++ sep ++ join sep l.
Proof. destruct l; [congruence|reflexivity]. Qed.

Lemma join_app sep a b : a <> [] -> b <> [] -> join sep (a ++ b) = join sep a ++ sep ++ join sep b.
Proof.
  intros Na Nb. induction a as [|t a IH]; [congruence|]. destruct a as [|u a].
  - cbn [app]. now rewrite join_cons by exact Nb.
  - change ((t :: u :: a) ++ b) with (t :: ((u :: a) ++ b)). rewrite join_cons by discriminate. rewrite IH by discriminate.
    rewrite (join_cons sep t (u :: a)) by discriminate. now rewrite !app_assoc.
Qed.

(** ** Digits *)
Definition digit_char (d : Z) : ascii := ascii_of_N (Z.to_N (if d <? 10 then 48 + d else 87 + d)).
Definition char_code (c : ascii) : Z := Z.of_N (N_of_ascii c).
(** The value of a digit, lower or upper case, or none. *)
Definition digit_val (c : ascii) : option Z :=
  let n := char_code c in
  if (48 <=? n) && (n <=? 57) then Some (n - 48)
  else if (97 <=? n) && (n <=? 102) then Some (n - 87)
  else if (65 <=? n) && (n <=? 70) then Some (n - 55)
  else None.
Definition is_digit (c : ascii) : bool := (48 <=? char_code c) && (char_code c <=? 57).

(** digits of [n], most significant first, before [acc] *)
Fixpoint digs (fuel : nat) (b n : Z) (acc : list Z) : list Z :=
  match fuel with
  | O => acc
  | S f => if n <? b then n :: acc else digs f b (n / b) (n mod b :: acc)
  end.
Definition digits (b n : Z) : list Z := digs (S (Z.to_nat (Z.log2 n))) b n [].
Definition value (b : Z) (l : list Z) : Z := fold_left (fun a d => a * b + d) l 0.

(** Python "%d" and "%x" of a number that is not negative *)
Definition show (b n : Z) : text := map digit_char (digits b n).
Definition dec (n : Z) : text := show 10 n.

(** all characters are digits of base [b], at least one: the number *)
Fixpoint read_digits (b : Z) (s : text) : option (list Z) :=
  match s with
  | [] => Some []
  | c :: r => match digit_val c, read_digits b r with
              | Some d, Some l => if d <? b then Some (d :: l) else None
              | _, _ => None
              end
  end.
Definition read (b : Z) (s : text) : option Z :=
  match s with
  | [] => None
  | _ => option_map (value b) (read_digits b s)
  end.

Lemma char_code_digit d : 0 <= d < 16 -> char_code (digit_char d) = if d <? 10 then 48 + d else 87 + d.
Proof.
  intros H. unfold char_code, digit_char. rewrite N_ascii_embedding by (destruct (Z.ltb_spec d 10); lia).
  destruct (Z.ltb_spec d 10); lia.
Qed.

Lemma digit_val_char d : 0 <= d < 16 -> digit_val (digit_char d) = Some d.
Proof.
  intros H. unfold digit_val. rewrite char_code_digit by exact H. destruct (Z.ltb_spec d 10).
  - replace ((48 <=? 48 + d) && (48 + d <=? 57)) with true by lia. f_equal. lia.
  - replace ((48 <=? 87 + d) && (87 + d <=? 57)) with false by lia.
    replace ((97 <=? 87 + d) && (87 + d <=? 102)) with true by lia. f_equal. lia.
Qed.

Lemma digit_val_range c d : digit_val c = Some d -> 0 <= d < 16.
Proof.
  unfold digit_val. destruct ((48 <=? _) && _) eqn:E1; [intros H; injection H; lia|].
  destruct ((97 <=? _) && _) eqn:E2; [intros H; injection H; lia|].
  destruct ((65 <=? _) && _) eqn:E3; [intros H; injection H; lia|discriminate].
Qed.

Lemma value_app b l1 l2 : value b (l1 ++ l2) = fold_left (fun a d => a * b + d) l2 (value b l1).
Proof. unfold value. apply fold_left_app. Qed.
Lemma value_snoc b l d : value b (l ++ [d]) = value b l * b + d.
Proof. now rewrite value_app. Qed.

Lemma digs_prefix b : forall f n acc, digs f b n acc = digs f b n [] ++ acc.
Proof.
  induction f as [|f IH]; intros n acc; cbn; [reflexivity|]. destruct (n <? b); [reflexivity|].
  rewrite IH, (IH (n / b) [n mod b]). now rewrite <- app_assoc.
Qed.

Lemma digs_value b : 2 <= b -> forall f n, 0 <= n < b ^ Z.of_nat f -> (0 < f)%nat -> value b (digs f b n []) = n.
Proof.
  intros B. induction f as [|f IH]; intros n H F; [lia|]. cbn [digs]. destruct (Z.ltb_spec n b) as [L|L].
  - reflexivity.
  - rewrite digs_prefix, value_snoc. rewrite IH.
    + pose proof (Z.div_mod n b). lia.
    + split; [apply Z.div_pos; lia|]. apply Z.div_lt_upper_bound; [lia|]. rewrite Nat2Z.inj_succ, Z.pow_succ_r in H; lia.
    + destruct f; [|lia]. cbn in H. lia.
Qed.

Lemma digs_range b : 2 <= b -> forall f n acc, 0 <= n -> Forall (fun d => 0 <= d < b) acc -> Forall (fun d => 0 <= d < b) (digs f b n acc).
Proof.
  intros B. induction f as [|f IH]; intros n acc H F; cbn; [exact F|]. destruct (Z.ltb_spec n b).
  - constructor; [lia|exact F].
  - apply IH; [apply Z.div_pos; lia|]. constructor; [apply Z.mod_pos_bound; lia|exact F].
Qed.

Lemma digits_value b n : 2 <= b -> 0 <= n -> value b (digits b n) = n.
Proof.
  intros B H. unfold digits. apply digs_value; [exact B| |lia]. split; [exact H|].
  destruct (Z.eq_dec n 0) as [->|N].
  - apply Z.pow_pos_nonneg; lia.
  - assert (n < 2 ^ Z.succ (Z.log2 n)) by (apply Z.log2_spec; lia).
    assert (2 ^ Z.succ (Z.log2 n) <= b ^ Z.of_nat (S (Z.to_nat (Z.log2 n)))).
    { pose proof (Z.log2_nonneg n). replace (Z.of_nat (S (Z.to_nat (Z.log2 n)))) with (Z.succ (Z.log2 n)) by lia.
      apply Z.pow_le_mono_l. lia. }
    lia.
Qed.
Lemma digits_range b n : 2 <= b -> 0 <= n -> Forall (fun d => 0 <= d < b) (digits b n).
Proof. intros B H. apply digs_range; auto. Qed.

Lemma digits_nonempty b n : digits b n <> [].
Proof.
  unfold digits. cbn. destruct (n <? b); [discriminate|]. rewrite digs_prefix. intros E. now apply app_eq_nil in E as [_ E].
Qed.

Lemma read_digits_show b l : 2 <= b <= 16 -> Forall (fun d => 0 <= d < b) l -> read_digits b (map digit_char l) = Some l.
Proof.
  intros B. induction l as [|d l IH]; intros F; [reflexivity|]. inversion F; subst. cbn.
  rewrite digit_val_char by lia. rewrite IH by assumption. now destruct (Z.ltb_spec d b); [|lia].
Qed.

Lemma read_show b n : 2 <= b <= 16 -> 0 <= n -> read b (show b n) = Some n.
Proof.
  intros B H. unfold read, show. destruct (map digit_char (digits b n)) as [|c r] eqn:E.
  - apply map_eq_nil in E. now apply digits_nonempty in E.
  - rewrite <- E, read_digits_show by (try apply digits_range; lia). cbn. f_equal. apply digits_value; lia.
Qed.

Lemma show_nonempty b n : show b n <> [].
Proof. unfold show. intros E. apply map_eq_nil in E. now apply digits_nonempty in E. Qed.

Lemma show_inj b n m : 2 <= b <= 16 -> 0 <= n -> 0 <= m -> show b n = show b m -> n = m.
Proof. intros B H1 H2 E. pose proof (read_show b n B H1). pose proof (read_show b m B H2). congruence. Qed.

(** no leading zero, except the number 0 *)
Lemma digs_lead b : 2 <= b -> forall f n acc, 0 < n < b ^ Z.of_nat f -> exists d r, digs f b n acc = d :: r /\ d <> 0.
Proof.
  intros B. induction f as [|f IH]; intros n acc H; [cbn in H; lia|]. cbn [digs]. destruct (Z.ltb_spec n b).
  - exists n, acc. split; [reflexivity|lia].
  - apply IH. split; [apply Z.div_str_pos; lia|]. apply Z.div_lt_upper_bound; [lia|]. rewrite Nat2Z.inj_succ, Z.pow_succ_r in H; lia.
Qed.
Lemma digits_lead b n : 2 <= b -> 0 < n -> exists d r, digits b n = d :: r /\ d <> 0.
Proof.
  intros B H. apply digs_lead; [exact B|]. split; [exact H|].
  assert (n < 2 ^ Z.succ (Z.log2 n)) by (apply Z.log2_spec; lia). pose proof (Z.log2_nonneg n).
  assert (2 ^ Z.succ (Z.log2 n) <= b ^ Z.of_nat (S (Z.to_nat (Z.log2 n)))).
  { replace (Z.of_nat (S (Z.to_nat (Z.log2 n)))) with (Z.succ (Z.log2 n)) by lia. apply Z.pow_le_mono_l. lia. }
  lia.
Qed.
Lemma digits_zero b : 2 <= b -> digits b 0 = [0].
Proof. intros B. unfold digits. cbn. destruct (Z.ltb_spec 0 b); [reflexivity|lia]. Qed.

Lemma digs_length b : 2 <= b -> forall k f n, 0 <= n < b ^ Z.of_nat k -> (0 < k)%nat -> (length (digs f b n []) <= k)%nat.
Proof.
  intros B. induction k as [|k IH]; intros f n H K; [lia|]. destruct f as [|f]; cbn; [lia|]. destruct (Z.ltb_spec n b); cbn; [lia|].
  rewrite digs_prefix, app_length. cbn. assert (length (digs f b (n / b) []) <= k)%nat; [|lia]. apply IH.
  - split; [apply Z.div_pos; lia|]. apply Z.div_lt_upper_bound; [lia|]. rewrite Nat2Z.inj_succ, Z.pow_succ_r in H; lia.
  - destruct k; [cbn in H; lia|lia].
Qed.
Lemma show_length b n k : 2 <= b -> 0 <= n < b ^ Z.of_nat k -> (0 < k)%nat -> (length (show b n) <= k)%nat.
Proof. intros. unfold show. rewrite map_length. now apply digs_length. Qed.

(** digits are neither separators nor signs *)
Lemma show_chars b n c : 2 <= b <= 16 -> 0 <= n -> In c (show b n) -> exists d, 0 <= d < b /\ c = digit_char d.
Proof.
  intros B H I. unfold show in I. apply in_map_iff in I as (d & <- & I). exists d. split; [|reflexivity].
  pose proof (digits_range b n ltac:(lia) H) as F. rewrite Forall_forall in F. auto.
Qed.
Lemma show_free b n c : 2 <= b <= 16 -> 0 <= n -> digit_val c = None -> ~ In c (show b n).
Proof.
  intros B H E I. apply show_chars in I as (d & R & ->); auto. rewrite digit_val_char in E by lia. discriminate.
Qed.
Lemma read_free b s c : digit_val c = None -> In c s -> read b s = None.
Proof.
  intros E I. unfold read. destruct s as [|x s]; [reflexivity|]. assert (H : read_digits b (x :: s) = None); [|now rewrite H].
  induction (x :: s) as [|y r IH]; [destruct I|]. cbn. destruct I as [->|I].
  - now rewrite E.
  - rewrite IH by exact I. now destruct (digit_val y).
Qed.
