(** Proofs about tags: what the shell makes of the script, and replaceTag. *)
From Verif Require Import Base Text Tags_Model Tags_Spec Tags_Proofs Tags_Proofs2 Tags_Proofs3.
From Coq Require Import ZifyBool ZifyNat.

(** ** the shell *)
Lemma other_lines_app a b : ~ In nl a -> other_lines (a ++ nl :: b) = b.
Proof.
  induction a as [|c a IH]; intros H; cbn [app other_lines].
  - rewrite eqb_refl. reflexivity.
  - destruct (eqb_spec c nl) as [->|]; [destruct H; now left|]. apply IH. intros I; apply H; now right.
Qed.
Lemma ident_app x s : namelike x -> match s with [] => True | c :: _ => identb c = false end -> ident (x ++ s) = (x, s).
Proof.
  induction x as [|c x IH]; intros H Hs; cbn [app ident].
  - destruct s as [|c s]; [reflexivity|]. cbn [ident]. now rewrite Hs.
  - rewrite (H c) by now left. rewrite IH; auto. intros d I; apply H; now right.
Qed.
Lemma shell_plain env v : forall k s, ~ In "$"%char v -> (length v <= k)%nat -> shell_text k env (v ++ s) = v ++ shell_text (k - length v) env s.
Proof.
  induction v as [|c v IH]; intros k s N L; cbn [app length]; [now rewrite Nat.sub_0_r|].
  destruct k as [|k]; [cbn in L; lia|]. cbn [shell_text]. destruct (eqb_spec c "$"%char) as [->|]; [destruct N; now left|].
  rewrite IH; [reflexivity|intros I; apply N; now right|cbn in L; lia].
Qed.
Lemma shell_var env n s k v : dget (variable n) env = Some v -> match s with [] => True | c :: _ => identb c = false end ->
  shell_text (S k) env ("$"%char :: variable n ++ s) = v ++ shell_text k env s.
Proof.
  intros H Hs. cbn [shell_text]. rewrite eqb_refl. rewrite ident_app; [|apply variable_namelike|exact Hs].
  unfold text in *. rewrite H. reflexivity.
Qed.
Section Meaning.
Context (add info : text -> option text) (env : list (text * text)).
Lemma shell_meant ps : (forall c, In (Lit c) ps -> c <> "$"%char) -> (forall n, In (Tag n) ps -> info n <> None) -> apart ps ->
  (forall n v, In (Tag n) ps -> info n = Some v -> ~ harmless v -> dget (variable n) env = Some v) ->
  forall k, (length (concat (map (shown1 add info) ps)) <= k)%nat ->
  shell_text k env (concat (map (shown1 add info) ps)) = concat (map (meant info) ps).
Proof.
  induction ps as [|[c|n] ps IH]; intros Hl Ht Ha He k L.
  - destruct k; reflexivity.
  - cbn [map concat shown1 meant] in *. rewrite app_length in L. cbn [length] in L. rewrite shell_plain.
    + rewrite IH; auto.
      * intros d I. apply Hl. now right.
      * intros n I. apply Ht. now right.
      * intros n v I. apply He. now right.
      * cbn [length]. lia.
    + intros [E|[]]. apply (Hl c); [now left|exact E].
    + cbn [length]. lia.
  - assert (IH' : forall k, (length (concat (map (shown1 add info) ps)) <= k)%nat -> shell_text k env (concat (map (shown1 add info) ps)) = concat (map (meant info) ps)).
    { apply IH.
      - intros d I. apply Hl. now right.
      - intros m I. apply Ht. now right.
      - apply Ha.
      - intros m v I. apply He. now right. }
    cbn [map concat shown1 meant] in *. destruct (info n) as [v|] eqn:E; [|destruct (Ht n); [now left|exact E]].
    rewrite app_length in L. unfold shown in *. destruct (existsb special v) eqn:S.
    + destruct k as [|k]; [cbn in L; lia|]. change (var_name n) with (variable n) in *. cbn [app]. rewrite (shell_var env n _ k v).
      * rewrite IH'; [reflexivity|]. cbn [length] in L. lia.
      * apply He; [now left|exact E|]. now apply special_harmful.
      * destruct ps as [|[c|m] ps]; [exact I| |destruct Ha as (F & _); destruct F]. cbn. apply Ha.
    + rewrite shell_plain; [|intros I; apply special_harmless in S; apply (S _ I); vm_compute; tauto|lia].
      rewrite IH'; [reflexivity|lia].
Qed.
End Meaning.
Lemma harmless_no_lt v : harmless v -> ~ In lt v.
Proof. intros H I. apply (H _ I). vm_compute. tauto. Qed.
Lemma variable_no_lt n : ~ In lt (variable n).
Proof. intros I. apply variable_namelike in I. discriminate. Qed.
Lemma shown1_no_lt add info ps : (forall c, In (Lit c) ps -> c <> lt) -> (forall n, In (Tag n) ps -> info n <> None) ->
  ~ In lt (concat (map (shown1 add info) ps)).
Proof.
  intros Hl Ht I. apply in_concat in I. destruct I as (x & I & J). apply in_map_iff in I. destruct I as ([c|n] & <- & I); cbn [shown1] in J.
  - destruct J as [->|[]]. now apply (Hl lt).
  - destruct (info n) as [v|] eqn:E; [|now apply (Ht n)]. unfold shown in J. destruct (existsb special v) eqn:S.
    + destruct J as [J|J]; [discriminate|]. now apply (variable_no_lt n).
    + apply special_harmless in S. now apply (harmless_no_lt v).
Qed.
Lemma has_In c s : has c s = true <-> In c s.
Proof.
  unfold has. rewrite existsb_exists. split.
  - intros (x & I & E). apply eqb_true in E. now subst.
  - intros I. exists c. split; [exact I|apply eqb_refl].
Qed.
Lemma no_lt_parsed s qs : ~ In lt s -> parsed (tx "<F-") cap_name s qs -> qs = map Lit s.
Proof.
  intros N H. symmetry. apply (parsed_fun (tx "<F-") cap_name s); [apply cap_no_gt|discriminate| |exact H].
  apply no_lt_lits. destruct (has "<"%char s) eqn:E; [|reflexivity]. apply has_In in E. now destruct N.
Qed.

(** ** replaceTag *)
Lemma expands_sub def def' : (forall n v, def n = Some v -> def' n = Some v) -> forall l d, expands def l d -> way def' l d.
Proof.
  intros Hd. induction 1 as [|t l l' Ht H IH|n v d d' l l' Hn Ho Hv H1 IH1 H2 IH2]; intros e He.
  - exact He.
  - change (t :: l') with ([t] ++ l') in He. apply expands_split in He. destruct He as (e1 & e2 & A & B & ->).
    change (t :: l) with ([t] ++ l). apply expands_app; auto.
  - apply expands_split in He. destruct He as (e1 & e2 & A & B & ->). apply (e_tag def' n v d); auto.
Qed.
Definition pieces (l : list tok) : list piece :=
  flat_map (fun t => match t with TChar c => [Lit c] | TLess => [Lit lt; Lit sp] | TTag n => [Tag n] end) l.
Lemma pieces_parsed l : Forall tok_ok l -> parsed [lt] tag_name (toks_text l) (pieces l).
Proof.
  induction 1 as [|t l Ht Hl IH]; [constructor|]. rewrite toks_text_cons. unfold pieces in *. cbn [flat_map]. destruct t as [c| |n]; cbn [tok_text app tok_ok] in *.
  - constructor; auto. intros n r _ [= -> _]. now destruct Ht.
  - constructor; [|constructor; auto].
    + intros n r (N1 & N2 & _) E. destruct n as [|c n]; [congruence|]. injection E as <- _. apply N2. now left.
    + intros n r _ [= E _].
  - rewrite <- app_assoc. cbn [app]. apply (p_tag [lt] tag_name n (toks_text l) _ Ht IH).
Qed.
Section Query.
Context (conditional : text) (add : text -> option text) (info : dict text text).
Definition run_static := fun (_ : unit) n m => (tt, subst_static conditional add info n m).
Definition static1 (p : piece) : text := match p with Lit c => [c] | Tag n => subst_static conditional add info n ([lt] ++ n ++ [gt]) end.
Lemma run_static_eq ps : run [lt] run_static tt ps = (tt, concat (map static1 ps)).
Proof.
  induction ps as [|[c|n] ps IH]; [reflexivity| |]; cbn [run].
  - rewrite IH. reflexivity.
  - change (run_static tt n ([lt] ++ n ++ [gt])) with (tt, subst_static conditional add info n ([lt] ++ n ++ [gt])). cbv beta iota. rewrite IH. reflexivity.
Qed.
Lemma sub_toks l : Forall tok_ok l -> snd (sub_tags run_static tt (toks_text l)) = concat (map static1 (pieces l)).
Proof.
  intros Hl. unfold sub_tags.
  destruct (gsub_run [lt] tag_name tag_at tag_at_spec run_static (length (toks_text l)) tt (toks_text l) (le_n _)) as (ps & Hp & ->).
  rewrite run_static_eq. cbn [snd]. f_equal. f_equal.
  apply (parsed_fun [lt] tag_name (toks_text l)); [apply tag_no_gt|discriminate|exact Hp|now apply pieces_parsed].
Qed.
End Query.

Section Query2.
Context (conditional : text) (add : text -> option text) (aInfo info : dict text text).
Context (noesc : forall k n, In k (dkeys aInfo) -> In n escaped_tags -> k <> n /\ k <> n ++ "?"%char :: conditional).
Context (reg : forall k v, dget k aInfo = Some v -> regular v).
Context (addok : forall n v, add n = Some v -> ~ In lt v).
Context (fuel : nat) (Hs : substitute conditional escaped_tags [] fuel aInfo = Ok info).
Definition def1 := definition conditional escaped_tags aInfo [].
Definition def2 (n : text) : option text := match definition conditional [] aInfo [] n with Some v => Some v | None => add n end.
Lemma def1_def n : def1 n = definition conditional [] aInfo [] n.
Proof.
  unfold def1, definition. cbn [inb existsb]. destruct (inb n escaped_tags) eqn:E; [|reflexivity].
  apply inb_In in E. cbn [dget].
  assert (A : dget n aInfo = None).
  { apply dget_None. intros I. now destruct (noesc _ _ I E). }
  assert (B : dget (n ++ "?"%char :: conditional) aInfo = None).
  { apply dget_None. intros I. now destruct (noesc _ _ I E). }
  unfold text in *. rewrite A, B. destruct (eqb conditional []); reflexivity.
Qed.
Lemma def1_def2 n v : def1 n = Some v -> def2 n = Some v.
Proof. rewrite def1_def. unfold def2. now intros ->. Qed.
Lemma info_look n : match (match (if eqb conditional [] then None else dget (n ++ "?"%char :: conditional) info) with Some v => Some v | None => dget n info end) with
  | Some v => ~ In n escaped_tags /\ exists v0 d0 d, def1 n = Some v0 /\ Forall tok_ok d0 /\ v0 = toks_text d0 /\ v = toks_text d /\ expands def1 d0 d
  | None => def1 n = None end.
Proof.
  destruct (substitute_full conditional escaped_tags [] aInfo reg ltac:(discriminate) _ _ Hs) as (K & S & I).
  assert (D : forall k, In k (dkeys aInfo) -> ~ In k escaped_tags -> exists v0 d0 d, dget k aInfo = Some v0 /\ dget k info = Some (toks_text d) /\ Forall tok_ok d0 /\ v0 = toks_text d0 /\ expands def1 d0 d).
  { intros k Ik Nk. destruct (dget_ex k aInfo Ik) as (v0 & H0). destruct (S k Nk v0 H0) as (d0 & d & A & B & C & E). eauto 10. }
  assert (F : forall k, ~ In k (dkeys aInfo) -> dget k info = None /\ dget k aInfo = None).
  { intros k Nk. split; apply dget_None; [rewrite K|]; exact Nk. }
  assert (Plain : match dget n info with
    | Some v => ~ In n escaped_tags /\ exists v0 d0 d, dget n aInfo = Some v0 /\ Forall tok_ok d0 /\ v0 = toks_text d0 /\ v = toks_text d /\ expands def1 d0 d
    | None => dget n aInfo = None end).
  { destruct (inb n (dkeys aInfo)) eqn:E.
    - apply inb_In in E. assert (Nn : ~ In n escaped_tags) by (intros X; now destruct (noesc _ _ E X)).
      destruct (D _ E Nn) as (v0 & d0 & d & A & B & C & G & H). unfold text in *. rewrite B. split; [exact Nn|]. exists v0, d0, d. auto.
    - apply inb_false in E. destruct (F _ E) as (F1 & F2). unfold text in *. rewrite F1, F2. reflexivity. }
  rewrite def1_def. unfold definition. cbn [inb existsb]. unfold text in *.
  destruct (eqb conditional []).
  { destruct (dget n info) as [v|].
    - destruct Plain as (Nn & v0 & d0 & d & -> & R). split; [exact Nn|]. exists v0, d0, d. auto.
    - rewrite Plain. reflexivity. }
  destruct (inb (n ++ "?"%char :: conditional) (dkeys aInfo)) eqn:E.
  - apply inb_In in E.
    assert (Nn : ~ In n escaped_tags) by (intros X; now destruct (noesc _ _ E X)).
    assert (Nk : ~ In (n ++ "?"%char :: conditional) escaped_tags) by (intros X; now destruct (noesc _ _ E X)).
    destruct (D _ E Nk) as (v0 & d0 & d & A & B & R). unfold text in *. rewrite A, B. split; [exact Nn|]. exists v0, d0, d. destruct R as (R1 & R2 & R3). auto.
  - apply inb_false in E. destruct (F _ E) as (A & B). unfold text in *. rewrite A, B.
    destruct (dget n info) as [v|].
    + destruct Plain as (Nn & v0 & d0 & d & -> & R). split; [exact Nn|]. exists v0, d0, d. auto.
    + rewrite Plain. reflexivity.
Qed.
Lemma plain_toks v : ~ In lt v -> Forall tok_ok (map TChar v) /\ toks_text (map TChar v) = v /\ (forall n, ~ In (TTag n) (map TChar v)).
Proof.
  induction v as [|c v IH]; intros N; [repeat split; [constructor|intros n []]|].
  destruct IH as (A & B & C); [intros I; apply N; now right|]. cbn [map]. split; [|split].
  - constructor; [|exact A]. intros ->. apply N. now left.
  - rewrite toks_text_cons, B. reflexivity.
  - intros n [E|I]; [discriminate|now apply (C n)].
Qed.
(** one step, as tokens *)
Lemma one_tag n : tag_name n -> exists d, Forall tok_ok d /\ subst_static conditional add info n ([lt] ++ n ++ [gt]) = toks_text d /\
  way def2 [TTag n] d /\ (forall m, In (TTag m) d -> def1 m = None) /\ (def1 n = None -> final def2 d) /\ (def2 n = None -> d = [TTag n]).
Proof.
  intros Hn. unfold subst_static. pose proof (info_look n) as L. unfold text in *.
  match goal with |- context [match ?m with Some _ => if mem _ _ then _ else _ | None => _ end] => set (o := m) in *; clearbody o end.
  destruct o as [v|].
  - destruct L as (Nn & v0 & d0 & d & D & O0 & E0 & -> & Ex).
    assert (mem n escaped_tags = false) as -> by (destruct (mem n escaped_tags) eqn:E; [apply mem_In in E; now destruct Nn|reflexivity]).
    exists d. split; [eapply expands_ok; eauto|]. split; [reflexivity|]. split; [|split; [|split]].
    + intros e He. rewrite <- (app_nil_r e). apply (e_tag def2 n v0 d0); auto; [now apply def1_def2| |constructor].
      apply (expands_sub def1 def2 def1_def2 _ _ Ex). exact He.
    + apply (expands_result def1 _ _ Ex).
    + intros X. congruence.
    + intros X. apply def1_def2 in D. congruence.
  - destruct (add n) as [v|] eqn:A.
    + destruct (plain_toks v (addok _ _ A)) as (P1 & P2 & P3). exists (map TChar v). split; [exact P1|]. split; [now rewrite P2|].
      assert (D2 : def2 n = Some v) by (unfold def2; rewrite <- def1_def, L; exact A).
      split; [|split; [|split]].
      * intros e He. rewrite <- (app_nil_r e). apply (e_tag def2 n v (map TChar v)); auto; constructor.
      * intros m I. now destruct (P3 m).
      * intros _ m I. now destruct (P3 m).
      * congruence.
    + assert (D2 : def2 n = None) by (unfold def2; rewrite <- def1_def, L; exact A).
      exists [TTag n]. split; [constructor; [exact Hn|constructor]|]. split; [cbn; now rewrite app_nil_r|]. split; [now intros e|]. split; [|split].
      * intros m [[= <-]|[]]. exact L.
      * intros _ m [[= <-]|[]]. exact D2.
      * reflexivity.
Qed.
Lemma one_pass l : Forall tok_ok l -> exists d, Forall tok_ok d /\ concat (map (static1 conditional add info) (pieces l)) = toks_text d /\
  way def2 l d /\ (forall m, In (TTag m) d -> def1 m = None) /\ ((forall m, In (TTag m) l -> def1 m = None) -> final def2 d) /\ (final def2 l -> d = l).
Proof.
  induction 1 as [|t l Ht Hl (d & A & B & C & D & E & F)].
  - exists []. split; [constructor|]. split; [reflexivity|]. split; [now intros e|]. split; [intros m []|]. split; [intros _ m []|reflexivity].
  - assert (K : tok_ok t -> (forall n, t <> TTag n) -> concat (map (static1 conditional add info) (pieces [t])) = tok_text t ->
      exists d, Forall tok_ok d /\ concat (map (static1 conditional add info) (pieces (t :: l))) = toks_text d /\
      way def2 (t :: l) d /\ (forall m, In (TTag m) d -> def1 m = None) /\ ((forall m, In (TTag m) (t :: l) -> def1 m = None) -> final def2 d) /\ (final def2 (t :: l) -> d = t :: l)).
    { intros Kt Kn Ks. exists (t :: d). split; [now constructor|]. split; [|split; [|split; [|split]]].
      - unfold pieces in *. cbn [flat_map] in *. rewrite app_nil_r in Ks. rewrite map_app, concat_app, Ks, B. reflexivity.
      - intros e He. change (t :: d) with ([t] ++ d) in He. apply expands_split in He. destruct He as (e1 & e2 & H1 & H2 & ->).
        change (t :: l) with ([t] ++ l). apply expands_app; auto.
      - intros m [I|I]; [now destruct (Kn m)|now apply D].
      - intros X m [I|I]; [now destruct (Kn m)|]. apply E; auto. intros m' I'. apply X. now right.
      - intros X. f_equal. apply F. intros m I. apply X. now right. }
    destruct t as [c| |n]; [apply K; auto; discriminate|apply K; auto; discriminate|clear K].
    destruct (one_tag n Ht) as (dn & An & Bn & Cn & Dn & En & Fn). exists (dn ++ d). split; [now apply Forall_app|]. split; [|split; [|split; [|split]]].
    + unfold pieces in *. cbn [flat_map]. rewrite map_app, concat_app, B. cbn [map concat]. rewrite app_nil_r, toks_text_app. f_equal. exact Bn.
    + intros e He. apply expands_split in He. destruct He as (e1 & e2 & H1 & H2 & ->). change (TTag n :: l) with ([TTag n] ++ l). apply expands_app; auto.
    + intros m I. apply in_app_or in I. destruct I; auto.
    + intros X m I. apply in_app_or in I. destruct I as [I|I].
      * apply En; [apply X; now left|exact I].
      * apply E; [intros m' I'; apply X; now right|exact I].
    + intros X. rewrite Fn by (apply X; now left). rewrite F by (intros m I; apply X; now right). reflexivity.
Qed.
Lemma replace_loop_eq k q : replace_loop conditional add k info q =
  (let value := snd (sub_tags (run_static conditional add info) tt q) in
  if eqb value q || negb (has "<"%char value) then Ok value else match k with O => ValueError | S k => replace_loop conditional add k info value end).
Proof. destruct k; reflexivity. Qed.
Lemma no_lt_no_tag l n : has "<"%char (toks_text l) = false -> ~ In (TTag n) l.
Proof.
  intros H I. assert (In lt (toks_text l)).
  { unfold toks_text. apply in_concat. exists (tok_text (TTag n)). split; [now apply in_map|now left]. }
  apply has_In in H0. change lt with "<"%char in H0. congruence.
Qed.
Lemma replace_loop_full l : Forall tok_ok l -> exists d, replace_loop conditional add 25 info (toks_text l) = Ok (toks_text d) /\ expands def2 l d.
Proof.
  intros Hl. destruct (one_pass l Hl) as (d1 & A1 & B1 & C1 & D1 & E1 & F1).
  destruct (one_pass d1 A1) as (d2 & A2 & B2 & C2 & D2 & E2 & F2). specialize (E2 D1).
  destruct (one_pass d2 A2) as (d3 & A3 & B3 & C3 & D3 & E3 & F3). specialize (F3 E2). subst d3.
  rewrite replace_loop_eq. cbv zeta. rewrite sub_toks, B1 by exact Hl.
  destruct (eqb_spec (toks_text d1) (toks_text l)) as [Eq|Ne]; cbn [orb].
  { apply toks_unique in Eq; auto. subst d1. exists l. split; [reflexivity|].
    apply expands_final. now apply E1. }
  destruct (has "<"%char (toks_text d1)) eqn:H1; cbn [negb].
  2:{ exists d1. split; [reflexivity|]. apply C1, expands_final. intros n I. now destruct (no_lt_no_tag _ n H1). }
  rewrite replace_loop_eq. cbv zeta. rewrite sub_toks, B2 by exact A1.
  destruct (eqb (toks_text d2) (toks_text d1) || negb (has "<"%char (toks_text d2))).
  { exists d2. split; [reflexivity|]. apply C1, C2, expands_final, E2. }
  rewrite replace_loop_eq. cbv zeta. rewrite sub_toks, B3 by exact A2. rewrite eqb_refl. cbn [orb].
  exists d2. split; [reflexivity|]. apply C1, C2, expands_final, E2.
Qed.
End Query2.
