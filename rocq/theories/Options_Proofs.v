(** Proofs for texts with options. *)
From Verif Require Import Base Text Backtrack Options_Model Options_Spec.
Require Import ZifyBool ZifyNat.

(** ** Characters *)
Lemma blank_space c : blank c <-> is_space c = true.
Proof. unfold blank, is_space. lia. Qed.
Lemma char_code_inj a b : char_code a = char_code b -> a = b.
Proof. unfold char_code. intros H. apply N2Z.inj in H. apply (f_equal ascii_of_N) in H. now rewrite !ascii_N_embedding in H. Qed.
Lemma name_oname c : name_char c <-> is_oname c = true.
Proof.
  unfold name_char, is_oname.
  assert (A : c = "_"%char <-> char_code c = 95%Z) by (split; [intros ->; reflexivity|intros H; apply char_code_inj; exact H]).
  assert (B : c = "-"%char <-> char_code c = 45%Z) by (split; [intros ->; reflexivity|intros H; apply char_code_inj; exact H]).
  assert (C : c = "."%char <-> char_code c = 46%Z) by (split; [intros ->; reflexivity|intros H; apply char_code_inj; exact H]).
  rewrite A, B, C. lia.
Qed.
Lemma oname_not_space c : is_oname c = true -> is_space c = false.
Proof. unfold is_oname, is_space. lia. Qed.
Lemma blanks_run s : blanks s <-> Forall (fun c => is_space c = true) s.
Proof. unfold blanks. split; apply Forall_impl; intros c; apply blank_space. Qed.
Lemma but_true l c : but l c = true <-> ~ In c l.
Proof. unfold but. rewrite negb_true_iff. apply inb_false. Qed.
Lemma but1_all d s : Forall (fun c => but [d] c = true) s <-> ~ In d s.
Proof.
  rewrite Forall_forall. split.
  - intros H I0. specialize (H d I0). apply but_true in H. apply H. now left.
  - intros H c I0. apply but_true. intros [->|[]]. contradiction.
Qed.
Lemma but2_all d e s : Forall (fun c => but [d; e] c = true) s <-> ~ In d s /\ ~ In e s.
Proof.
  rewrite Forall_forall. split.
  - intros H. split; intros I0; pose proof (H _ I0) as X; apply but_true in X; apply X; cbn; auto.
  - intros [H1 H2] c I0. apply but_true. intros [->|[->|[]]]; contradiction.
Qed.
Lemma but1_stops d r : stops (but [d]) r <-> match r with [] => True | c :: _ => c = d end.
Proof.
  destruct r as [|c r]; cbn; [tauto|]. unfold but. rewrite negb_false_iff. cbn. rewrite orb_false_r. split; [intros H; now apply eqb_true in H|intros ->; apply eqb_refl].
Qed.
Lemma but2_stops d e r : stops (but [d; e]) r <-> match r with [] => True | c :: _ => c = d \/ c = e end.
Proof.
  destruct r as [|c r]; cbn; [tauto|]. unfold but. rewrite negb_false_iff. cbn. rewrite orb_false_r, orb_true_iff. split.
  - intros [H|H]; apply eqb_true in H; auto.
  - intros [-> | ->]; rewrite eqb_refl; auto.
Qed.

(** ** The matcher, without backtracking *)
Definition term' (n v s : text) : item :=
  match s with
  | [] => IOpt n v []
  | c :: r =>
      if eqb c comma then IOpt n v r
      else if eqb c closing then match snd (run is_space r) with
                                 | d :: r' => if eqb d opening then IOpt n v r' else IWrong
                                 | [] => IWrong
                                 end
      else match r with [] => if eqb c newline then IOpt n v s else IWrong | _ => IWrong end
  end.
Lemma term_eq n v s : terminator n v s = Some (term' n v s).
Proof.
  unfold terminator, lit, cat, chr. destruct s as [|c r]; [reflexivity|]. unfold term'.
  change (eqb comma c) with (eqb comma c). rewrite (eqb_sym comma c), (eqb_sym closing c).
  destruct (eqb_spec c comma) as [->|N1]; [reflexivity|].
  assert (W : forall x : option item, match x with Some x => Some x | None => many1 any item (c :: r) (fun _ => Some IWrong) end
                        = match x with Some x => Some x | None => Some IWrong end).
  { intros [x|]; [reflexivity|]. unfold many1, cat, chr. cbn. rewrite many_total by discriminate. reflexivity. }
  destruct (eqb_spec c closing) as [->|N2].
  - rewrite many_exact.
    + destruct (snd (run is_space r)) as [|d r'].
      * rewrite W. destruct r; reflexivity.
      * rewrite (eqb_sym opening d). destruct (eqb d opening); [reflexivity|]. rewrite W. destruct r; reflexivity.
    + intros d r' E. destruct (eqb_spec opening d) as [<-|_]; [discriminate|reflexivity].
  - rewrite W. unfold eos. destruct r as [|d r].
    + now destruct (eqb c newline).
    + reflexivity.
Qed.

Definition quoted (q : ascii) (s : text) : option (text * text) :=
  match s with
  | c :: r => if eqb c q then match run (but [q]) r with (v, _ :: r') => Some (v, r') | (_, []) => None end else None
  | [] => None
  end.
Lemma taken_run f s : taken s (snd (run f s)) = fst (run f s).
Proof. pose proof (run_spec f s) as (E & _). rewrite E at 1. apply taken_app. Qed.
Lemma quoted_eq q n s :
  lit q item s (fun r => many (but [q]) item r (fun r' => lit q item r' (terminator n (taken r r'))))
  = match quoted q s with Some (v, r') => Some (term' n v r') | None => None end.
Proof.
  unfold lit at 1, chr, quoted. destruct s as [|c r]; [reflexivity|]. rewrite (eqb_sym q c). destruct (eqb c q); [|reflexivity].
  rewrite many_exact.
  - rewrite taken_run. pose proof (run_spec (but [q]) r) as (_ & _ & St). destruct (run (but [q]) r) as [v r']. cbn [fst snd] in *.
    apply but1_stops in St. destruct r' as [|d r']; [reflexivity|]. subst d. unfold lit, chr. rewrite eqb_refl. apply term_eq.
  - intros d r' E. unfold lit, chr. destruct (eqb_spec q d) as [<-|_]; [|reflexivity]. apply but_true in E. elim E. now left.
Qed.
Definition value' (n s : text) : item :=
  match quoted dquote s with
  | Some (v, r) => term' n v r
  | None => match quoted squote s with
            | Some (v, r) => term' n v r
            | None => let '(v, r) := run (but [comma; closing]) s in term' n v r
            end
  end.
Lemma value_eq n s : value_part n s = Some (value' n s).
Proof.
  unfold value_part, value'. rewrite !quoted_eq. destruct (quoted dquote s) as [[v r]|]; [reflexivity|].
  destruct (quoted squote s) as [[v r]|]; [reflexivity|].
  rewrite many_total by (intros r; rewrite term_eq; discriminate). rewrite term_eq, taken_run.
  now destruct (run (but [comma; closing]) s).
Qed.
Definition ends (s : text) : bool :=
  match (match s with c :: r => if eqb c comma then r else s | [] => [] end) with
  | s' => match snd (run is_space s') with [] => true | _ => false end
  end.
Definition next' (s : text) : item :=
  let other := match s with [] => IEnd [] | _ => if ends s then IEnd [] else IWrong end in
  match run is_oname (snd (run is_space s)) with
  | (c :: n, e :: r) => if eqb e equals then value' (c :: n) r else other
  | _ => other
  end.
Lemma other_eq s :
  match (opt (lit comma) ;; many is_space ;; eos) item s (fun r => Some (IEnd r)) with
  | Some x => Some x
  | None => many1 any item s (fun _ => Some IWrong)
  end = Some (match s with [] => IEnd [] | _ => if ends s then IEnd [] else IWrong end).
Proof.
  assert (SE : forall s, (many is_space ;; eos) item s (fun r => Some (IEnd r)) = match snd (run is_space s) with [] => Some (IEnd []) | _ => None end).
  { intros u. unfold cat. destruct (snd (run is_space u)) as [|d r'] eqn:E; [apply many_run; now rewrite E|].
    pose proof (run_spec is_space u) as (Eu & _ & St). rewrite E in Eu, St. cbn in St. clear E.
    generalize dependent (fst (run is_space u)). intros a ->. induction a as [|c a IH]; cbn [app many].
    - rewrite St. unfold eos. destruct r'; [|reflexivity]. destruct (eqb_spec d newline) as [->|_]; [discriminate|reflexivity].
    - rewrite IH. destruct (is_space c); unfold eos; destruct a; reflexivity. }
  unfold opt, alt, cat at 1. unfold eps. unfold lit, chr at 1. destruct s as [|c r].
  - rewrite SE. reflexivity.
  - rewrite (eqb_sym comma c), !SE. unfold ends.
    assert (W : many1 any item (c :: r) (fun _ => Some IWrong) = Some IWrong).
    { unfold many1, cat, chr. cbn. rewrite many_total by discriminate. reflexivity. }
    rewrite W. destruct (eqb_spec c comma) as [->|N].
    + destruct (snd (run is_space r)); reflexivity.
    + destruct (snd (run is_space (c :: r))); reflexivity.
Qed.
Lemma next_eq s : next_item s = Some (next' s).
Proof.
  unfold next_item, next'. rewrite other_eq. rewrite many_exact.
  - rewrite many1_exact.
    + pose proof (taken_run is_oname (snd (run is_space s))) as T. destruct (run is_oname (snd (run is_space s))) as [[|c n] r]; [reflexivity|].
      cbn [fst snd] in T. rewrite T. unfold lit, chr. destruct r as [|e r]; [reflexivity|]. rewrite (eqb_sym equals e).
      destruct (eqb e equals); [now rewrite value_eq|reflexivity].
    + intros c r E. unfold lit, chr. destruct (eqb_spec equals c) as [<-|_]; [discriminate|reflexivity].
  - intros c r E. unfold many1, cat, chr. destruct (is_oname c) eqn:E2; [|reflexivity]. apply oname_not_space in E2. congruence.
Qed.

(** ** The options in order *)
Fixpoint pairs (fuel : nat) (s : text) : option (list (text * text)) :=
  match fuel with
  | O => Some []
  | S fuel =>
      match next' s with
      | IOpt n v r => match pairs fuel r with Some l => Some ((n, v) :: l) | None => None end
      | IEnd _ => Some []
      | IWrong => None
      end
  end.
Definition put (d : dict text text) (nv : text * text) : dict text text := dset (strip (fst nv)) (strip (snd nv)) d.

Inductive tail_of (v x tl r : text) : Prop :=
| T_end : tl = [] -> r = [] -> tail_of v x tl r
| T_line : tl = [nl] -> r = [nl] -> tail_of v x tl r
| T_sep sep : separator sep -> tl = sep ++ r -> tail_of v x tl r.
Lemma term_opt n v s n' v' r x : term' n v s = IOpt n' v' r -> n' = n /\ v' = v /\ tail_of v x s r.
Proof.
  unfold term'. destruct s as [|c s].
  - intros H. injection H as <- <- <-. split; [|split]; auto. now apply T_end.
  - destruct (eqb_spec c comma) as [->|N1].
    { intros H. injection H as <- <- <-. split; [|split]; auto. apply (T_sep _ _ _ _ [","%char]); [constructor|reflexivity]. }
    destruct (eqb_spec c closing) as [->|N2].
    + pose proof (run_spec is_space s) as (E & F & _). destruct (run is_space s) as [w t]. cbn [fst snd] in *. destruct t as [|d t]; [discriminate|].
      destruct (eqb_spec d opening) as [->|]; [|discriminate]. intros H. injection H as <- <- <-. split; [|split]; auto.
      apply (T_sep _ _ _ _ (["]"%char] ++ w ++ ["["%char])); [constructor; now apply blanks_run|]. rewrite E. cbn. now rewrite <- app_assoc.
    + destruct s; [|discriminate]. destruct (eqb_spec c newline) as [->|]; [|discriminate]. intros H. injection H as <- <- <-.
      split; [|split]; auto. now apply T_line.
Qed.
Lemma term_end n v s r : term' n v s <> IEnd r.
Proof.
  unfold term'. destruct s as [|c s]; [discriminate|]. destruct (eqb c comma); [discriminate|]. destruct (eqb c closing).
  - destruct (snd (run is_space s)) as [|d t]; [discriminate|]. now destruct (eqb d opening).
  - destruct s; [|discriminate]. now destruct (eqb c newline).
Qed.
Lemma quoted_some q s v r : quoted q s = Some (v, r) <-> s = [q] ++ v ++ [q] ++ r /\ ~ In q v.
Proof.
  unfold quoted. destruct s as [|c s]; [split; [discriminate|intros [H _]; discriminate]|]. destruct (eqb_spec c q) as [->|N].
  - pose proof (run_spec (but [q]) s) as (E & F & St). split.
    + destruct (run (but [q]) s) as [a [|d b]]; [discriminate|]. cbn [fst snd] in *. apply but1_stops in St. subst d. intros H. injection H as <- <-.
      apply but1_all in F. rewrite E. auto.
    + intros [H NI]. injection H as ->. clear E F St. rewrite (run_app (but [q]) v (q :: r)); [reflexivity|now apply but1_all|now apply but1_stops].
  - split; [discriminate|]. intros [H _]. injection H as -> _. congruence.
Qed.
Lemma quoted_none q c s : quoted q (c :: s) = None <-> c <> q \/ ~ In q s.
Proof.
  unfold quoted. destruct (eqb_spec c q) as [->|N]; [|tauto]. pose proof (run_spec (but [q]) s) as (E & F & St).
  destruct (run (but [q]) s) as [a b]. cbn [fst snd] in *. apply but1_all in F. apply but1_stops in St. destruct b as [|d b].
  - rewrite app_nil_r in E. subst s. tauto.
  - subst d s. split; [discriminate|]. intros [H|H]; [congruence|]. exfalso. apply H. apply in_or_app. right. now left.
Qed.

Lemma value_opt n s n' v r : value' n s = IOpt n' v r -> exists x tl, s = x ++ tl /\ n' = n /\ value_text tl x v
  /\ (tl = [] /\ r = [] \/ tl = [nl] /\ r = [nl] /\ x <> v \/ exists sep, separator sep /\ tl = sep ++ r).
Proof.
  unfold value'. destruct (quoted dquote s) as [[v0 r0]|] eqn:Q1.
  - apply quoted_some in Q1 as [-> NI]. intros H. apply (term_opt _ _ _ _ _ _ []) in H as (-> & -> & T). exists ([dq] ++ v0 ++ [dq]), r0.
    split; [cbn; now rewrite <- app_assoc|]. split; [reflexivity|]. split; [now apply V_double|].
    destruct T as [E1 E2|E1 E2|sep S0 E]; [auto| |eauto]. right. left. do 2 (split; [assumption|]). intros H. apply (f_equal (@length _)) in H. cbn in H. rewrite app_length in H. cbn in H. lia.
  - destruct (quoted squote s) as [[v0 r0]|] eqn:Q2.
    + apply quoted_some in Q2 as [-> NI]. intros H. apply (term_opt _ _ _ _ _ _ []) in H as (-> & -> & T). exists ([sq] ++ v0 ++ [sq]), r0.
      split; [cbn; now rewrite <- app_assoc|]. split; [reflexivity|]. split; [now apply V_single|].
      destruct T as [E1 E2|E1 E2|sep S0 E]; [auto| |eauto]. right. left. do 2 (split; [assumption|]). intros H. apply (f_equal (@length _)) in H. cbn in H. rewrite app_length in H. cbn in H. lia.
    + pose proof (run_spec (but [comma; closing]) s) as (E & F & St). destruct (run (but [comma; closing]) s) as [v0 r0]. cbn [fst snd] in *.
      intros H. apply (term_opt _ _ _ _ _ _ []) in H as (-> & -> & T). exists v0, r0. split; [exact E|]. split; [reflexivity|].
      apply but2_all in F as [F1 F2]. apply but2_stops in St. split.
      * constructor; auto. intros q v' -> [-> | ->]; rewrite E in *; cbn [app] in *.
        -- apply quoted_none in Q1 as [Q1|Q1]; [now elim Q1|exact Q1].
        -- apply quoted_none in Q2 as [Q2|Q2]; [now elim Q2|exact Q2].
      * destruct T as [E1 E2|E1 E2|sep S0 E']; [auto| |eauto]. subst r0. destruct St; discriminate.
Qed.

Lemma next_opt s n v r : next' s = IOpt n v r -> exists w x tl, s = w ++ n ++ ["="%char] ++ x ++ tl /\ blanks w /\ option_name n /\ value_text tl x v
  /\ (tl = [] /\ r = [] \/ tl = [nl] /\ r = [nl] /\ x <> v \/ exists sep, separator sep /\ tl = sep ++ r).
Proof.
  unfold next'. pose proof (run_spec is_space s) as (E & F & _). destruct (run is_space s) as [w s1]. cbn [fst snd] in *.
  pose proof (run_spec is_oname s1) as (E1 & F1 & _). destruct (run is_oname s1) as [n0 s2]. cbn [fst snd] in *.
  set (other := match s with [] => _ | _ => _ end).
  assert (Oth : other <> IOpt n v r) by (unfold other; destruct s; [discriminate|]; destruct (ends _); discriminate).
  destruct n0 as [|c n0]; [contradiction|]. destruct s2 as [|e s2]; [contradiction|]. destruct (eqb_spec e equals) as [->|]; [|contradiction].
  intros H. apply value_opt in H as (x & tl & E2 & -> & V & T). exists w, x, tl. split; [now rewrite E, E1, E2|].
  split; [now apply blanks_run|]. split; [|auto]. split; [discriminate|]. eapply Forall_impl; [|exact F1]. intros a. apply name_oname.
Qed.
Lemma ends_true s : ends s = true <-> exists w, blanks w /\ (s = w \/ s = [","%char] ++ w).
Proof.
  unfold ends. assert (K : forall u, match snd (run is_space u) with [] => true | _ => false end = true <-> blanks u).
  { intros u. pose proof (run_spec is_space u) as (E & F & St). rewrite blanks_run. destruct (run is_space u) as [a b]. cbn [fst snd] in *. destruct b as [|c b].
    - rewrite app_nil_r in E. subst a. tauto.
    - split; [discriminate|]. intros H. subst u. apply Forall_app in H as [_ H]. inversion H; subst. cbn in St. congruence. }
  destruct s as [|c s]; rewrite K.
  - split; [intros H; exists []; auto|]. intros (w & H & [->|X]); [exact H|discriminate].
  - destruct (eqb_spec c comma) as [->|N].
    + split; [intros H; exists s; auto|]. intros (w & H & [<-|X]); [|injection X as ->; exact H].
      inversion H as [|? ? B]; subst. apply blank_space in B. discriminate.
    + split; [intros H; exists (c :: s); auto|]. intros (w & H & [->|X]); [exact H|]. injection X as X _. now elim N.
Qed.
Lemma next_end s r : next' s = IEnd r -> options_text s [].
Proof.
  unfold next'. set (other := match s with [] => _ | _ => _ end).
  assert (Oth : other = IEnd r -> options_text s []).
  { unfold other. destruct s as [|c s]; [intros _; apply OT_none; constructor|]. destruct (ends (c :: s)) eqn:E; [|discriminate]. intros _.
    apply ends_true in E as (w & B & [-> | ->]); constructor; assumption. }
  destruct (run is_oname (snd (run is_space s))) as [[|c n] [|e t]]; auto. destruct (eqb e equals); auto.
  unfold value'. destruct (quoted dquote t) as [[a b]|]; [intros H; now apply term_end in H|].
  destruct (quoted squote t) as [[a b]|]; [intros H; now apply term_end in H|]. destruct (run _ t) as [a b]. intros H. now apply term_end in H.
Qed.
Lemma next_len s n v r : next' s = IOpt n v r -> (length r < length s)%nat.
Proof.
  intros H. apply next_opt in H as (w & x & tl & -> & _ & [N _] & V & T). destruct n; [congruence|]. rewrite !app_length. cbn [length].
  destruct T as [(-> & ->)|[(-> & -> & _)|(sep & _ & ->)]]; rewrite ?app_length; cbn; lia.
Qed.

Lemma pairs_sound : forall fuel s l, (length s < fuel)%nat -> pairs fuel s = Some l -> options_text s l.
Proof.
  induction fuel as [|fuel IH]; intros s l L H; [lia|]. cbn [pairs] in H. destruct (next' s) as [n v r|r|] eqn:E; [| |discriminate].
  - pose proof (next_len _ _ _ _ E). destruct (pairs fuel r) as [l'|] eqn:P; [|discriminate]. injection H as <-. apply IH in P; [|lia].
    assert (K : forall s0 l0, options_text s0 l0 -> (length s0 < 2)%nat -> l0 = []).
    { intros s0 l0 O. destruct O as [| |? n0 ? ? ? [N0 _]|? n0 ? ? ? [N0 _]|? n0 ? ? ? ? ? ? [N0 _]]; auto; intros X; destruct n0; try congruence; rewrite !app_length in X; cbn in X; lia. }
    apply next_opt in E as (w & x & tl & -> & B & N & V & T). destruct T as [(-> & ->)|[(-> & -> & NV)|(sep & S0 & ->)]].
    + assert (l' = []) as -> by (apply (K _ _ P); cbn; lia).
      rewrite app_nil_r. now apply OT_last.
    + assert (l' = []) as -> by (apply (K _ _ P); cbn; lia).
      now apply OT_last_line.
    + now apply OT_next.
  - injection H as <-. now apply next_end in E.
Qed.

Lemma next_compute w n y : blanks w -> option_name n -> next' (w ++ n ++ ["="%char] ++ y) = value' n y.
Proof.
  intros B [N F]. unfold next'. rewrite (run_app is_space w); [|now apply blanks_run|].
  - cbn [snd]. rewrite (run_app is_oname n); [|eapply Forall_impl; [|exact F]; intros a; apply name_oname|reflexivity].
    destruct n as [|c n]; [congruence|]. reflexivity.
  - destruct n as [|c n]; [congruence|]. inversion F; subst. cbn. apply oname_not_space. now apply name_oname.
Qed.
Lemma value_compute n x v tl : value_text tl x v -> (x <> v \/ stops (but [comma; closing]) tl) -> value' n (x ++ tl) = term' n v tl.
Proof.
  intros V St. unfold value'. destruct V as [v NI|v NI|v N1 N2 Q].
  - assert (E : quoted dquote (([dq] ++ v ++ [dq]) ++ tl) = Some (v, tl)).
    { apply quoted_some. split; [|exact NI]. cbn. now rewrite <- app_assoc. }
    now rewrite E.
  - assert (E : quoted squote (([sq] ++ v ++ [sq]) ++ tl) = Some (v, tl)).
    { apply quoted_some. split; [|exact NI]. cbn. now rewrite <- app_assoc. }
    rewrite E. replace (quoted dquote (([sq] ++ v ++ [sq]) ++ tl)) with (@None (text * text)); [reflexivity|]. reflexivity.
  - destruct St as [St|St]; [congruence|].
    assert (QN : forall q, q = dq \/ q = sq -> quoted q (v ++ tl) = None).
    { intros q Hq. destruct v as [|c v]; cbn [app].
      - destruct tl as [|c tl]; [reflexivity|]. apply quoted_none. left. apply but2_stops in St. destruct Hq as [-> | ->], St as [-> | ->]; discriminate.
      - apply quoted_none. destruct (eqb_spec c q) as [->|]; [|now left]. right. now apply (Q q v). }
    rewrite (QN dquote) by now left. rewrite (QN squote) by now right.
    rewrite (run_app (but [comma; closing]) v tl); [reflexivity| |exact St]. apply but2_all. auto.
Qed.
Lemma sep_stops sep r : separator sep -> stops (but [comma; closing]) (sep ++ r).
Proof. intros []; reflexivity. Qed.
Lemma term_sep n v sep r : separator sep -> term' n v (sep ++ r) = IOpt n v r.
Proof.
  intros [|w B]; [reflexivity|]. unfold term'. cbn [app]. rewrite eqb_refl. change (eqb closing comma) with false. cbn iota.
  rewrite <- app_assoc. rewrite (run_app is_space w); [|now apply blanks_run|reflexivity]. reflexivity.
Qed.
Lemma ends_next s : ends s = true -> exists r, next' s = IEnd r.
Proof.
  intros E. unfold next'. set (other := match s with [] => _ | _ => _ end).
  assert (Oth : exists r, other = IEnd r) by (unfold other; destruct s; [|rewrite E]; eauto).
  assert (K : fst (run is_oname (snd (run is_space s))) = []).
  { apply ends_true in E as (w & B & [-> | ->]).
    - rewrite <- (app_nil_r w). rewrite (run_app is_space w); [reflexivity|now apply blanks_run|exact I].
    - reflexivity. }
  destruct (run is_oname (snd (run is_space s))) as [a b]. cbn [fst] in K. subst a. exact Oth.
Qed.
Lemma pairs_complete s l : options_text s l -> forall fuel, (length s < fuel)%nat -> pairs fuel s = Some l.
Proof.
  induction 1 as [w B|w B|w n x v B N V|w n x v B N V NV|w n x v sep rest l B N V S0 O IH]; intros fuel L; (destruct fuel as [|fuel]; [lia|]); cbn [pairs].
  - destruct (ends_next w) as (r & ->); [|reflexivity]. apply ends_true. eauto.
  - destruct (ends_next ([","%char] ++ w)) as (r & ->); [|reflexivity]. apply ends_true. eauto.
  - rewrite next_compute by assumption. rewrite <- (app_nil_r x). rewrite (value_compute n x v []); auto; [|right; exact I]. cbn [term'].
    destruct fuel as [|fuel]; [exfalso; rewrite !app_length in L; cbn in L; lia|]. reflexivity.
  - rewrite next_compute by assumption. rewrite (value_compute n x v [nl]); auto. cbn [term']. destruct fuel as [|fuel]; reflexivity.
  - rewrite next_compute by assumption. rewrite (value_compute n x v (sep ++ rest)); auto; [|right; now apply sep_stops].
    rewrite term_sep by exact S0. rewrite IH; [reflexivity|]. rewrite !app_length in L. cbn in L. lia.
Qed.

Lemma items_pairs : forall fuel s acc, (length s < fuel)%nat ->
  items fuel s acc = match pairs fuel s with Some l => Some (fold_left put l acc) | None => None end.
Proof.
  induction fuel as [|fuel IH]; intros s acc L; [lia|]. cbn [items pairs]. rewrite next_eq. destruct (next' s) as [n v r|r|] eqn:E; [| |reflexivity].
  - pose proof (next_len _ _ _ _ E). rewrite IH by lia. destruct (pairs fuel r); reflexivity.
  - assert (r = []).
    { unfold next' in E. destruct (run is_oname (snd (run is_space s))) as [[|c n] [|e t]];
        try (destruct s; [congruence|]; destruct (ends _); congruence).
      destruct (eqb e equals); [|destruct s; [congruence|]; destruct (ends _); congruence].
      exfalso. revert E. unfold value'. destruct (quoted dquote t) as [[a b]|]; [apply term_end|].
      destruct (quoted squote t) as [[a b]|]; [apply term_end|]. destruct (run _ t) as [a b]. apply term_end. }
    subst r. destruct s as [|c s]; [reflexivity|]. destruct (eqb_spec (@length ascii []) (length (c :: s))) as [X|_]; [discriminate|].
    cbn in L. destruct fuel as [|fuel]; [lia|]. reflexivity.
Qed.

(** ** The whole text *)
Lemma spaces_end (R : Type) (x : R) s : (many is_space ;; eos) R s (fun _ => Some x) = if forallb is_space s then Some x else None.
Proof.
  induction s as [|c s IH]; [reflexivity|]. unfold cat in *. cbn [many forallb]. destruct (is_space c) eqn:E; cbn [andb].
  - rewrite IH. destruct (forallb is_space s) eqn:F; [reflexivity|]. unfold eos. destruct s; [discriminate|reflexivity].
  - unfold eos. destruct s; [|reflexivity]. destruct (eqb_spec c newline) as [->|]; [discriminate|reflexivity].
Qed.
Lemma all_blank s : forallb is_space s = true <-> blanks s.
Proof. rewrite forallb_forall, blanks_run, Forall_forall. tauto. Qed.
Lemma many_last f R s k : (forall u, u <> [] -> Forall (fun c => f c = true) u -> k (u ++ snd (run f s)) = None) -> many f R s k = k (snd (run f s)).
Proof.
  induction s as [|c s IH]; intros H; [reflexivity|]. cbn [run many] in *. destruct (f c) eqn:E; [|reflexivity].
  pose proof (run_spec f s) as (Es & F & _). destruct (run f s) as [a b]. cbn [fst snd] in *. rewrite IH by exact H. destruct (k b); [reflexivity|].
  rewrite Es. apply (H (c :: a)); [discriminate|]. now constructor.
Qed.
Lemma many_any (R : Type) (k : text -> option R) s x : many any R s k = Some x ->
  exists o r, s = o ++ r /\ k r = Some x.
Proof.
  induction s as [|c s IH]; intros H; [exists [], []; auto|]. cbn [many any] in H. destruct (many any R s k) as [y|] eqn:E.
  - injection H as ->. destruct (IH eq_refl) as (o & r & -> & K). exists (c :: o), r. auto.
  - exists [], (c :: s). auto.
Qed.
Lemma many_any_some (R : Type) (k : text -> option R) o r : k r <> None -> many any R (o ++ r) k <> None.
Proof.
  intros K. induction o as [|c o IH]; cbn [app many any].
  - destruct r as [|c r]; [exact K|]. cbn. destruct (many any R r k); [discriminate|exact K].
  - destruct (many any R (o ++ r) k); [discriminate|congruence].
Qed.

Definition brackets (name r1 : text) : option (text * option text) :=
  lit opening _ r1 (fun r2 => many any _ r2 (fun r3 =>
    lit closing _ r3 (fun r4 => (many is_space ;; eos) _ r4 (fun _ => Some (name, Some (taken r2 r3)))))).
Lemma brackets_some name r1 x : brackets name r1 = Some x <-> exists o w, r1 = [opening] ++ o ++ [closing] ++ w /\ blanks w /\ x = (name, Some o).
Proof.
  unfold brackets, lit at 1, chr. destruct r1 as [|c r2]; [split; [discriminate|intros (o & w & H & _); discriminate]|].
  destruct (eqb_spec opening c) as [<-|N]; [|split; [discriminate|intros (o & w & H & _); injection H as ->; congruence]].
  assert (K : forall r3 y, lit closing _ r3 (fun r4 => (many is_space ;; eos) _ r4 (fun _ => Some (name, Some (taken r2 r3)))) = Some y ->
    exists w, r3 = [closing] ++ w /\ blanks w /\ y = (name, Some (taken r2 r3))).
  { intros r3 y. unfold lit, chr. destruct r3 as [|d w]; [discriminate|]. destruct (eqb_spec closing d) as [<-|]; [|discriminate].
    rewrite spaces_end. destruct (forallb is_space w) eqn:F; [|discriminate]. intros H. injection H as <-. exists w. rewrite all_blank in F. auto. }
  split.
  - intros H. apply many_any in H as (o & r & E & H). apply K in H as (w & -> & B & ->). exists o, w. subst r2. rewrite taken_app. auto.
  - intros (o & w & H & B & ->). injection H as ->.
    destruct (many any _ (o ++ closing :: w) (fun r3 => lit closing _ r3 (fun r4 => (many is_space ;; eos) _ r4 (fun _ => Some (name, Some (taken (o ++ closing :: w) r3)))))) as [y|] eqn:E.
    + apply many_any in E as (o' & r & E' & H). apply K in H as (w' & -> & B' & ->).
      assert (X : (rev w ++ [closing]) ++ rev o = (rev w' ++ [closing]) ++ rev o').
      { apply (f_equal (@rev ascii)) in E'. cbn [app] in E'. rewrite !rev_app_distr in E'. cbn [rev] in E'. exact E'. }
      rewrite <- !app_assoc in X.
      assert (Sp : forall t, blanks t -> Forall (fun c => is_space c = true) (rev t)) by (intros t Bt; apply Forall_rev; now apply blanks_run).
      apply (run_unique is_space) in X as [X1 X2]; [|now apply Sp|reflexivity|now apply Sp|reflexivity].
      injection X2 as X2. apply (f_equal (@rev ascii)) in X2. rewrite !rev_involutive in X2. subst o'. rewrite E' at 1. now rewrite taken_app.
    + exfalso. apply many_any_some in E; [exact E|]. unfold lit, chr. rewrite eqb_refl, spaces_end. apply all_blank in B. rewrite B. discriminate.
Qed.

Lemma option_cre_eq s : option_cre s =
  match run (but [opening]) s with
  | ([], _) => None
  | (n, []) => Some (n, None)
  | (n, r1) => brackets n r1
  end.
Proof.
  unfold option_cre. unfold many1, cat at 1, chr at 1. destruct s as [|c s]; [reflexivity|]. cbn [run]. destruct (but [opening] c) eqn:Ec; [|reflexivity].
  match goal with |- many _ _ _ ?K = _ => set (k := K) end.
  assert (Kd : forall r1, k r1 = match brackets (taken (c :: s) r1) r1 with Some x => Some x | None => if forallb is_space r1 then Some (taken (c :: s) r1, None) else None end).
  { intros r1. unfold k, brackets. now rewrite spaces_end. }
  assert (T : taken (c :: s) (snd (run (but [opening]) s)) = c :: fst (run (but [opening]) s)).
  { pose proof (taken_run (but [opening]) (c :: s)) as T. cbn [run] in T. rewrite Ec in T. destruct (run (but [opening]) s). exact T. }
  pose proof (run_spec (but [opening]) s) as (E & F & St).
  destruct (snd (run (but [opening]) s)) as [|d b] eqn:Eb.
  - rewrite (many_run _ _ _ _ (c :: fst (run (but [opening]) s), None)).
    + destruct (run (but [opening]) s) as [a b']. cbn [fst snd] in *. now subst b'.
    + rewrite Eb, Kd, T. reflexivity.
  - apply but1_stops in St. subst d. rewrite many_last.
    + rewrite Eb, Kd, T. destruct (run (but [opening]) s) as [a b']. cbn [fst snd] in *. subst b'.
      destruct (brackets (c :: a) (opening :: b)); [reflexivity|]. reflexivity.
    + intros u NU FU. rewrite Eb, Kd. destruct u as [|d u]; [congruence|]. inversion FU as [|? ? Hd _]; subst. unfold brackets, lit at 1, chr. cbn [app].
      destruct (eqb_spec opening d) as [<-|_]; [discriminate|].
      replace (forallb is_space (d :: u ++ opening :: b)) with false; [reflexivity|]. symmetry. cbn [forallb]. rewrite forallb_app. cbn. now rewrite !andb_false_r.
Qed.

Theorem extract_exact s n d : extract_options s = Some (n, d) <->
  exists l, full_text s n l /\ d = fold_left put l [].
Proof.
  unfold extract_options. rewrite option_cre_eq. pose proof (run_spec (but [opening]) s) as (E & F & St).
  destruct (run (but [opening]) s) as [a b]. cbn [fst snd] in *. apply but1_all in F. apply but1_stops in St.
  assert (Inv : forall l, full_text s n l -> s = n /\ l = [] /\ n <> [] /\ ~ In opening n \/
            exists o w, s = n ++ [opening] ++ o ++ [closing] ++ w /\ n <> [] /\ ~ In opening n /\ blanks w /\ options_text o l).
  { intros l []; [left; auto|right; eauto 8]. }
  destruct a as [|c a].
  - split; [discriminate|]. intros (l & H & _). apply Inv in H as [(-> & _ & N & NI)|(o & w & Es & N & NI & _)].
    + destruct b as [|x b]; cbn in E; [congruence|]. subst x. exfalso. apply NI. rewrite E. now left.
    + destruct b as [|x b]; cbn in E; [destruct n; [congruence|]; rewrite Es in E; discriminate|]. subst x. destruct n as [|m n]; [congruence|].
      rewrite Es in E. injection E as -> _. exfalso. apply NI. now left.
  - destruct b as [|x b].
    + rewrite app_nil_r in E. subst s. split.
      * intros H. injection H as <- <-. exists []. split; [|reflexivity]. apply F_name; [discriminate|exact F].
      * intros (l & H & ->). apply Inv in H as [(-> & -> & _)|(o & w & Es & _)]; [reflexivity|]. exfalso. apply F. rewrite Es. apply in_or_app. right. now left.
    + subst x. split.
      * destruct (brackets (c :: a) (opening :: b)) as [y|] eqn:Br; [|discriminate]. apply brackets_some in Br as (o & w & Eb & Bw & ->).
        assert (Ft : forall l, options_text o l -> full_text s (c :: a) l).
        { intros l O. rewrite E, Eb. apply F_options; auto. discriminate. }
        destruct o as [|x o].
        -- intros H. injection H as <- <-. exists []. split; [|reflexivity]. apply Ft. apply OT_none. constructor.
        -- rewrite items_pairs by lia. destruct (pairs _ (x :: o)) as [l|] eqn:P; [|discriminate]. intros H. injection H as <- <-. exists l.
           split; [|reflexivity]. apply Ft. eapply pairs_sound; [|exact P]. lia.
      * intros (l & H & ->). apply Inv in H as [(-> & _ & _ & NI)|(o & w & Es & N & NI & Bw & O)].
        { exfalso. apply NI. rewrite E. apply in_or_app. right. now left. }
        rewrite E in Es. apply (run_unique (but [opening])) in Es as [-> Eb]; [|now apply but1_all|now apply but1_stops|now apply but1_all|now apply but1_stops].
        replace (brackets n (opening :: b)) with (Some (n, Some o)) by (symmetry; apply brackets_some; eauto).
        destruct o as [|x o].
        -- pose proof (pairs_complete _ _ O 1%nat ltac:(cbn; lia)) as P. cbn in P. injection P as <-. reflexivity.
        -- rewrite items_pairs by lia. rewrite (pairs_complete _ _ O) by lia. reflexivity.
Qed.

(** ** strip *)
Lemma lstrip_spec s : exists w, blanks w /\ s = w ++ lstrip s /\ stops is_space (lstrip s).
Proof.
  induction s as [|c s (w & B & E & St)]; [exists []; split; [constructor|]; split; [reflexivity|exact I]|]. cbn [lstrip].
  destruct (is_space c) eqn:Ec.
  - exists (c :: w). split; [constructor; [now apply blank_space|exact B]|]. split; [cbn; now f_equal|exact St].
  - exists []. split; [constructor|]. split; [reflexivity|exact Ec].
Qed.
Lemma rstrip_spec s : exists w, blanks w /\ s = rev (lstrip (rev s)) ++ w /\ stops is_space (lstrip (rev s)).
Proof.
  destruct (lstrip_spec (rev s)) as (w & B & E & St). exists (rev w). split; [now apply Forall_rev|]. split; [|exact St].
  rewrite <- rev_app_distr, <- E. now rewrite rev_involutive.
Qed.


Lemma strip_trimmed s : trimmed s (strip s).
Proof.
  unfold strip. destruct (lstrip_spec s) as (a & Ba & Ea & Sa). generalize dependent (lstrip s). intros u Ea Sa.
  destruct (rstrip_spec u) as (b & Bb & Eb & Sb). exists a, b. split; [now rewrite <- Eb|]. split; [exact Ba|]. split; [exact Bb|].
  destruct (lstrip (rev u)) as [|d t]; [exact I|]. destruct (rev (d :: t)) as [|c t'] eqn:Et; [exact I|]. split.
  - intros B. apply blank_space in B. rewrite Eb in Sa. cbn in Sa. congruence.
  - rewrite <- Et. cbn [rev]. rewrite last_last. intros B. apply blank_space in B. cbn in Sb. congruence.
Qed.
Lemma strip_name n : option_name n -> strip n = n.
Proof.
  intros [N F]. assert (K : forall m, Forall name_char m -> lstrip m = m).
  { intros m Fm. destruct m as [|c m]; [reflexivity|]. inversion Fm; subst. cbn. rewrite (oname_not_space c); [reflexivity|]. now apply name_oname. }
  unfold strip. rewrite (K n F), (K (rev n)) by now apply Forall_rev. apply rev_involutive.
Qed.
Lemma names_ok s l : options_text s l -> Forall (fun nv => option_name (fst nv)) l.
Proof. induction 1; repeat constructor; auto; try apply H0. Qed.

Lemma put_gives l : Forall (fun nv => option_name (fst nv)) l -> gives l (fold_left put l []).
Proof.
  intros F.
  assert (W : forall l d, dwf d -> dwf (fold_left put l d)).
  { clear. induction l as [|x l IH]; intros d W; [exact W|]. cbn. apply IH. now apply dwf_dset. }
  split; [apply W, dwf_nil|].
  assert (K : forall l (d : dict text text) cur k, Forall (fun nv => option_name (fst nv)) l ->
    match cur with None => dget k d = None | Some v => exists t, dget k d = Some t /\ trimmed v t end ->
    match given k l cur with None => dget k (fold_left put l d) = None | Some v => exists t, dget k (fold_left put l d) = Some t /\ trimmed v t end).
  { clear. induction l as [|[n v] l IH]; intros d cur k F H; [exact H|]. inversion F as [|? ? Hn Fl]; subst. cbn [given fold_left]. apply IH; [exact Fl|].
    unfold put. cbn [fst snd] in *. rewrite dget_dset, (strip_name n Hn). destruct (eqb_spec k n) as [->|N]; [|exact H].
    exists (strip v). split; [reflexivity|apply strip_trimmed]. }
  intros k. apply K; [exact F|reflexivity].
Qed.
Lemma full_names s n l : full_text s n l -> Forall (fun nv => option_name (fst nv)) l.
Proof. intros []; [constructor|eapply names_ok; eauto]. Qed.
