(** What the lengths of matches say: the language of a regular expression. *)
From Coq Require Import ZifyBool ZifyNat.
From Verif Require Import Base Text Strptime_Model Strptime_Spec Template_Model Template_Spec.
Local Open Scope string_scope. Local Open Scope list_scope. Local Open Scope nat_scope.

(** * Characters *)
Definition chars : list ascii := map ascii_of_nat (seq 0 256).
Lemma all_chars c : In c chars.
Proof.
  apply in_map_iff. exists (nat_of_ascii c). split; [apply ascii_nat_embedding|]. apply in_seq.
  pose proof (nat_ascii_bounded c). lia.
Qed.
Lemma every_char (P : ascii -> bool) : forallb P chars = true -> forall c, P c = true.
Proof. intros H c. eapply forallb_forall in H; [exact H|apply all_chars]. Qed.
Lemma every_char2 (P : ascii -> ascii -> bool) : forallb (fun a => forallb (P a) chars) chars = true -> forall a b, P a b = true.
Proof. intros H a. apply every_char. exact (every_char _ H a). Qed.

Definition all_in (f : ascii -> bool) (s : text) : Prop := Forall (fun c => f c = true) s.
Lemma run_le f s : run_of f s <= length s.
Proof. induction s as [|c r IH]; cbn; [lia|]. destruct (f c); lia. Qed.
Lemma run_prefix f s : all_in f (firstn (run_of f s) s).
Proof. induction s as [|c r IH]; cbn; [constructor|]. destruct (f c) eqn:E; cbn; [constructor; assumption|constructor]. Qed.
Lemma run_most f s n : n <= length s -> (n <= run_of f s <-> all_in f (firstn n s)).
Proof.
  revert n. induction s as [|c r IH]; intros n L; cbn [length] in L; cbn.
  - replace n with 0 by lia. split; [constructor|lia].
  - destruct n as [|n]; [split; [constructor|lia]|]. cbn [firstn]. destruct (f c) eqn:E.
    + rewrite <- Nat.succ_le_mono, (IH n) by lia. split; [now constructor|]. now inversion 1.
    + split; [lia|]. inversion 1. congruence.
Qed.
Lemma In_down lo n k : In k (down lo n) <-> lo <= k <= n.
Proof.
  induction n as [|n IH]; cbn [down].
  - destruct (Nat.ltb_spec 0 lo); cbn; lia.
  - destruct (Nat.ltb_spec (S n) lo); cbn; [lia|]. rewrite IH. lia.
Qed.

(** * The language *)
Fixpoint lang (ci : bool) (r : re) (s : text) : Prop :=
  match r with
  | Eps => s = []
  | Set_ f => exists c, s = [c] /\ accepts ci f c = true
  | Run lo hi f => lo <= length s <= hi /\ all_in (accepts ci f) s
  | Cat a b => exists u v, s = u ++ v /\ lang ci a u /\ lang ci b v
  | Alt a b => lang ci a s \/ lang ci b s
  | Opt a => lang ci a s \/ s = []
  end.
Lemma firstn_add {A} n m (s : list A) : firstn (n + m) s = firstn n s ++ firstn m (skipn n s).
Proof.
  revert s. induction n as [|n IH]; intros s; [reflexivity|]. destruct s as [|c s]; cbn.
  - now rewrite firstn_nil.
  - f_equal. apply IH.
Qed.
Lemma skipn_add {A} n m (s : list A) : skipn m (skipn n s) = skipn (n + m) s.
Proof. revert s. induction n as [|n IH]; intros s; [reflexivity|]. destruct s; cbn; [now rewrite skipn_nil|apply IH]. Qed.
Lemma lens_iff ci r : forall s n, In n (lens ci r s) <-> n <= length s /\ lang ci r (firstn n s).
Proof.
  induction r as [|f|lo hi f|a IHa b IHb|a IHa b IHb|a IHa]; intros s n; cbn [lens lang].
  - split.
    + intros [<-|[]]. split; [lia|reflexivity].
    + intros [L E]. left. destruct n; [reflexivity|]. destruct s; cbn in *; [lia|discriminate].
  - split.
    + destruct s as [|c s]; [intros []|]. destruct (accepts ci f c) eqn:E; [|intros []]. intros [<-|[]]. split; [cbn; lia|]. exists c. auto.
    + intros (L & c & E & A). destruct s as [|x s]; [now rewrite firstn_nil in E|]. destruct n as [|[|n]].
      * discriminate.
      * cbn in E. injection E as ->. rewrite A. now left.
      * destruct s; cbn in E, L; [lia|discriminate].
  - rewrite In_down. split.
    + intros H. pose proof (run_le (accepts ci f) s). split; [lia|]. rewrite firstn_length_le by lia. split; [lia|].
      apply run_most; lia.
    + intros (L & H & A). rewrite firstn_length_le in H by lia. apply run_most in A; [|lia]. lia.
  - rewrite in_flat_map. split.
    + intros (i & I & J). apply in_map_iff in J as (j & <- & J). apply IHa in I as [I1 I2]. apply IHb in J as [J1 J2].
      rewrite skipn_length in J1. split; [lia|]. exists (firstn i s), (firstn j (skipn i s)). split; [apply firstn_add|]. auto.
    + intros (L & u & v & E & U & V). exists (length u).
      assert (LU : length u + length v = n) by (rewrite <- app_length, <- E; apply firstn_length_le; lia).
      assert (FU : firstn (length u) s = u).
      { replace u with (firstn (length u) (firstn n s)) at 2 by (rewrite E, firstn_app, Nat.sub_diag, firstn_all, firstn_O; apply app_nil_r).
        rewrite firstn_firstn. f_equal. lia. }
      split; [apply IHa; rewrite FU; split; [lia|exact U]|]. apply in_map_iff. exists (length v). split; [exact LU|].
      apply IHb. rewrite skipn_length. split; [lia|]. rewrite firstn_skipn_comm, LU, E, skipn_app, skipn_all, Nat.sub_diag. exact V.
  - rewrite in_app_iff, IHa, IHb. tauto.
  - rewrite in_app_iff, IHa. cbn [In]. split.
    + intros [[L H]|[<-|[]]]; [auto|]. split; [lia|]. now right.
    + intros [L [H|H]]; [auto|]. right. left. destruct n; [reflexivity|]. destruct s; cbn in *; [lia|discriminate].
Qed.
Lemma lens_le ci r s n : In n (lens ci r s) -> n <= length s.
Proof. intros H. now apply lens_iff in H. Qed.
Lemma lens_whole ci r s : In (length s) (lens ci r s) <-> lang ci r s.
Proof. rewrite lens_iff, firstn_all. intuition. Qed.

(** all its words *)
Fixpoint runs (l : list ascii) (n : nat) : list text :=
  match n with O => [[]] | S m => flat_map (fun c => map (cons c) (runs l m)) l end.
Fixpoint words (ci : bool) (r : re) : list text :=
  match r with
  | Eps => [[]]
  | Set_ f => map (fun c => [c]) (filter (accepts ci f) chars)
  | Run lo hi f => flat_map (runs (filter (accepts ci f) chars)) (seq lo (S hi - lo))
  | Cat a b => let wb := words ci b in flat_map (fun u => map (app u) wb) (words ci a)
  | Alt a b => words ci a ++ words ci b
  | Opt a => [] :: words ci a
  end.
Lemma runs_iff f n s : In s (runs (filter f chars) n) <-> length s = n /\ all_in f s.
Proof.
  revert s. induction n as [|n IH]; intros s; cbn [runs].
  - split; [intros [<-|[]]; split; [reflexivity|constructor]|]. intros [L _]. left. destruct s; [reflexivity|discriminate].
  - rewrite in_flat_map. split.
    + intros (c & C & I). apply in_map_iff in I as (t & <- & T). apply filter_In in C as [_ C]. apply IH in T as [<- T].
      split; [reflexivity|now constructor].
    + intros [L A]. destruct s as [|c s]; [discriminate|]. inversion A; subst. exists c. split; [apply filter_In; split; [apply all_chars|assumption]|].
      apply in_map. apply IH. split; [cbn in L; lia|assumption].
Qed.
Lemma words_iff ci r : forall s, lang ci r s <-> In s (words ci r).
Proof.
  induction r as [|f|lo hi f|a IHa b IHb|a IHa b IHb|a IHa]; intros s; cbn [lang words].
  - cbn. intuition.
  - rewrite in_map_iff. split.
    + intros (c & -> & A). exists c. split; [reflexivity|]. apply filter_In. split; [apply all_chars|exact A].
    + intros (c & <- & I). apply filter_In in I as [_ A]. eauto.
  - rewrite in_flat_map. split.
    + intros [L A]. exists (length s). split; [apply in_seq; lia|]. now apply runs_iff.
    + intros (n & N & I). apply in_seq in N. apply runs_iff in I as [<- A]. split; [lia|exact A].
  - rewrite in_flat_map. split.
    + intros (u & v & -> & U & V). exists u. split; [now apply IHa|]. apply in_map. now apply IHb.
    + intros (u & U & I). apply in_map_iff in I as (v & <- & V). exists u, v. split; [reflexivity|]. split; [now apply IHa|now apply IHb].
  - rewrite in_app_iff, IHa, IHb. tauto.
  - cbn [In]. rewrite IHa. intuition.
Qed.

(** * What follows does not matter if it cannot be taken *)
(** the sets that are tried for the character after [s] *)
Fixpoint nexts (ci : bool) (r : re) (s : text) : list (ascii -> bool) :=
  match r with
  | Eps => []
  | Set_ f => match s with [] => [accepts ci f] | _ => [] end
  | Run lo hi f => if (length s <? hi) && forallb (accepts ci f) s then [accepts ci f] else []
  | Cat a b => nexts ci a s ++ flat_map (fun n => nexts ci b (skipn n s)) (lens ci a s)
  | Alt a b => nexts ci a s ++ nexts ci b s
  | Opt a => nexts ci a s
  end.
Lemma run_of_stop f s c r hi : (length s <? hi) && forallb f s = false \/ f c = false ->
  Nat.min hi (run_of f (s ++ c :: r)) = Nat.min hi (run_of f s).
Proof.
  revert hi. induction s as [|x s IH]; intros hi H; cbn [app run_of] in *.
  - cbn in H. destruct (f c); [|reflexivity]. destruct H as [H|H]; [|discriminate]. destruct hi as [|hi]; [reflexivity|]. discriminate.
  - cbn [length forallb] in H. destruct (f x); [|reflexivity]. destruct hi as [|hi]; [reflexivity|]. cbn [Nat.min]. f_equal.
    apply IH. cbn in H. exact H.
Qed.
Lemma nexts_stop ci r : forall s c q, (forall f, In f (nexts ci r s) -> f c = false) -> lens ci r (s ++ c :: q) = lens ci r s.
Proof.
  induction r as [|f|lo hi f|a IHa b IHb|a IHa b IHb|a IHa]; intros s c q; cbn [nexts lens].
  - reflexivity.
  - destruct s as [|x s]; cbn [app]; [intros H; rewrite (H _ (or_introl eq_refl)); reflexivity|reflexivity].
  - intros H. f_equal. apply run_of_stop. destruct ((length s <? hi) && forallb (accepts ci f) s); [|now left]. right. apply H. now left.
  - intros H. rewrite (IHa s c q) by (intros f F; apply H; apply in_app_iff; now left). rewrite !flat_map_concat_map. f_equal.
    apply map_ext_in. intros n N. f_equal. pose proof (lens_le _ _ _ _ N).
    assert (E : skipn n (s ++ c :: q) = skipn n s ++ c :: q) by (rewrite skipn_app; replace (n - length s) with 0 by lia; reflexivity).
    rewrite E. apply IHb. intros f F. apply H. apply in_app_iff. right. apply in_flat_map. eauto.
  - intros H. rewrite (IHa s c q), (IHb s c q); [reflexivity| |]; intros f F; apply H; apply in_app_iff; auto.
  - intros H. now rewrite (IHa _ _ _ H).
Qed.
Fixpoint most (r : re) : nat :=
  match r with
  | Eps => 0 | Set_ _ => 1 | Run _ hi _ => hi | Cat a b => most a + most b | Alt a b => Nat.max (most a) (most b) | Opt a => most a
  end.
Lemma lang_most ci r : forall s, lang ci r s -> length s <= most r.
Proof.
  induction r as [|f|lo hi f|a IHa b IHb|a IHa b IHb|a IHa]; intros s; cbn [lang most].
  - now intros ->.
  - intros (c & -> & _). reflexivity.
  - lia.
  - intros (u & v & -> & U & V). rewrite app_length. specialize (IHa _ U). specialize (IHb _ V). lia.
  - intros [H|H]; [specialize (IHa _ H)|specialize (IHb _ H)]; lia.
  - intros [H| ->]; [auto|cbn; lia].
Qed.
Lemma nexts_most ci r : forall s f, In f (nexts ci r s) -> length s < most r.
Proof.
  induction r as [|g|lo hi g|a IHa b IHb|a IHa b IHb|a IHa]; intros s f; cbn [nexts most].
  - intros [].
  - destruct s; [cbn; lia|intros []].
  - destruct (Nat.ltb_spec (length s) hi); [lia|intros []].
  - intros H. apply in_app_iff in H as [H|H]; [apply IHa in H; lia|]. apply in_flat_map in H as (n & N & F).
    apply IHb in F. rewrite skipn_length in F. apply lens_iff in N as [L N]. apply lang_most in N. rewrite firstn_length_le in N by exact L. lia.
  - intros H. apply in_app_iff in H as [H|H]; [apply IHa in H|apply IHb in H]; lia.
  - apply IHa.
Qed.
