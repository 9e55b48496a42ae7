(** The fields: which texts they take, and which of them is taken first. *)
From Coq Require Import ZifyBool ZifyNat.
From Verif Require Import Base Text Strptime_Model Strptime_Spec Template_Model Template_Spec Template_Proofs.
Local Open Scope string_scope. Local Open Scope list_scope. Local Open Scope nat_scope.

(** * The texts of the specification, listed *)
Definition range (lo hi : Z) : list Z := map (fun i => lo + Z.of_nat i)%Z (seq 0 (Z.to_nat (hi - lo + 1))).
Lemma In_range lo hi n : In n (range lo hi) <-> (lo <= n <= hi)%Z.
Proof.
  unfold range. rewrite in_map_iff. split.
  - intros (i & <- & I). apply in_seq in I. lia.
  - intros H. exists (Z.to_nat (n - lo)). split; [lia|]. apply in_seq. lia.
Qed.
Definition number_texts (lo hi : Z) (styles : list (Z -> text)) : list text := flat_map (fun f => map f (range lo hi)) styles.
Lemma number_iff lo hi st s : number lo hi st s <-> In s (number_texts lo hi st).
Proof.
  unfold number, number_texts. rewrite in_flat_map. split.
  - intros (n & f & R & F & ->). exists f. split; [exact F|]. apply in_map. now apply In_range.
  - intros (f & F & I). apply in_map_iff in I as (n & <- & N). apply In_range in N. eauto.
Qed.
Definition letter_like (a b : ascii) : bool :=
  eqb a b || ((char_code a + 32 =? char_code b) && (65 <=? char_code a) && (char_code a <=? 90))%Z.
Fixpoint variants (u : text) : list text :=
  match u with
  | [] => [[]]
  | b :: r => let vr := variants r in flat_map (fun a => map (cons a) vr) (filter (fun a => letter_like a b) chars)
  end.
Lemma variants_iff u : forall s, same_letters s u <-> In s (variants u).
Proof.
  unfold same_letters. induction u as [|b u IH]; intros s; cbn [variants].
  - split; [inversion 1; now left|intros [<-|[]]; constructor].
  - rewrite in_flat_map. split.
    + inversion 1 as [|a ? s' ? P F]; subst. exists a. split; [|apply in_map; now apply IH]. apply filter_In. split; [apply all_chars|].
      unfold letter_like. destruct P as [->|P]; [now rewrite eqb_refl|]. apply orb_true_iff. right. lia.
    + intros (a & A & I). apply in_map_iff in I as (s' & <- & S'). constructor; [|now apply IH]. apply filter_In in A as [_ A].
      unfold letter_like in A. destruct (eqb_spec a b); [now left|]. right. cbn [orb] in A. lia.
Qed.
Definition name_texts (ci : bool) (l : list string) : list text := flat_map (fun a => if ci then variants (tx a) else [tx a]) l.
Lemma name_iff ci l s : name ci l s <-> In s (name_texts ci l).
Proof.
  unfold name, name_texts. rewrite in_flat_map. split; intros (a & A & H); exists a; (split; [exact A|]).
  - destruct ci; [now apply variants_iff|now left].
  - destruct ci; [now apply variants_iff|]. now destruct H as [H|[]].
Qed.
Definition texts (ci : bool) (t : token) : option (list text) :=
  match t with
  | Ta => Some (name_texts ci (map snd day_names))
  | TA => Some (name_texts ci (map long_name day_names))
  | Tb => Some (name_texts ci (map snd month_names))
  | TB => Some (name_texts ci (map long_name month_names))
  | Tp => Some (name_texts ci ["am"; "pm"])
  | Td => Some (number_texts 1 31 [dec; padded 2; blank_padded])
  | Tm => Some (number_texts 1 12 [dec; padded 2])
  | TY | Tf | Tz | ExY => None
  | Ty => Some (number_texts 0 99 [padded 2])
  | TH => Some (number_texts 0 23 [dec; padded 2])
  | TI => Some (number_texts 1 12 [dec; padded 2])
  | TM => Some (number_texts 0 59 [dec; padded 2])
  | TS => Some (number_texts 0 61 [dec; padded 2])
  | Tj => Some (number_texts 1 366 [dec; padded 2; padded 3])
  | TU | TW => Some (number_texts 0 53 [dec; padded 2])
  | Tw => Some (number_texts 0 6 [dec])
  | Tk => Some (number_texts 0 29 [dec; padded 2])
  | Tl => Some (number_texts 0 19 [dec])
  | Exd => Some (number_texts 1 31 [padded 2])
  | Exm => Some (number_texts 1 12 [padded 2])
  | ExH => Some (number_texts 0 23 [padded 2])
  | Exk => Some (number_texts 0 23 [dec; padded 2])
  | Exl => Some (number_texts 0 12 [dec])
  | ExM => Some (number_texts 0 59 [padded 2])
  | ExS => Some (number_texts 0 61 [padded 2])
  | Exy => Some (number_texts 0 99 [padded 2])
  end%Z.
Lemma Some_inj {A} (a b : A) : Some a = Some b -> a = b.
Proof. now intros [= ->]. Qed.
Lemma texts_iff y ci t l s : texts ci t = Some l -> field_text y ci t s <-> In s l.
Proof.
  destruct t; cbn [texts field_text]; intros E; try discriminate E; apply Some_inj in E; rewrite <- E;
    match goal with |- number _ _ _ _ <-> _ => apply number_iff | _ => apply name_iff end.
Qed.
Definition tokens : list token :=
  [Ta; TA; Tb; TB; Tp; Td; Tm; TY; Ty; TH; TI; TM; TS; Tf; Tj; TU; TW; Tw; Tz; Tk; Tl; Exd; Exm; ExH; Exk; Exl; ExM; ExS; ExY; Exy].
Lemma all_tokens t : In t tokens.
Proof. destruct t; cbn; tauto. Qed.
Definition incl_b (a b : list text) : bool := forallb (fun s => inb s b) a.
Lemma incl_b_spec a b : incl_b a b = true -> forall s, In s a -> In s b.
Proof. intros H s I. eapply forallb_forall in H; [|exact I]. now apply inb_In in H. Qed.
Lemma texts_words : forallb (fun t => forallb (fun ci =>
    match texts ci t with Some l => incl_b l (words ci (token_re 0 t)) && incl_b (words ci (token_re 0 t)) l | None => true end) [true; false]) tokens = true.
Proof. vm_cast_no_check (eq_refl true). Qed.
Lemma token_re_year y y' t : t <> ExY -> token_re y t = token_re y' t.
Proof. destruct t; intros H; try reflexivity. congruence. Qed.
Lemma field_listed y ci t l s : texts ci t = Some l -> lang ci (token_re y t) s <-> field_text y ci t s.
Proof.
  intros E. rewrite (texts_iff y ci t l s E). rewrite (token_re_year y 0 t) by (intros ->; discriminate). rewrite words_iff.
  pose proof texts_words as H. eapply forallb_forall in H; [|apply (all_tokens t)]. eapply forallb_forall in H; [|instantiate (1 := ci); destruct ci; cbn; auto].
  rewrite E in H. apply andb_true_iff in H as [A B]. split; [now apply incl_b_spec|now apply incl_b_spec].
Qed.
