(** C46: sorting the date templates by their hits loses none and doubles none, and moves only the template just used, ahead.
    C63: which template dates a line.  C64: a date pattern is read as the template of that pattern. *)
From Coq Require Import QArith Permutation ZifyBool ZifyNat.
From Verif Require Import Base Text DateDetector_Model DateDetector_Spec DateDetector_Proofs DateDetector_Proofs2 DateDetector_Proofs3
  DateDetector_Proofs4 DateDetector_Proofs5 DateDetector_Proofs6.
Local Open Scope nat_scope.

(** Some templates to show it with: each finds its name, as a piece of the line.  [lit] is the search of such templates. *)
Fixpoint find (p : text) (l : text) (i : nat) : option nat :=
  if eqb (firstn (length p) l) p then Some i else match l with [] => None | _ :: r => find p r (S i) end.
Definition lit (t : template) (line : text) (part : option (nat * nat)) : option (nat * nat) :=
  let p := tx (t_name t) in
  let (a, z) := match part with Some (x, y) => (Nat.min x (length line), y) | None => (0, length line) end in
  match find p (firstn (z - a) (skipn a line)) 0 with
  | Some k => Some (a + k, a + k + length p)
  | None => None
  end.
Definition T (n : string) : template := mkT n 1 false false.
Definition three : list template := [T "12:"; T "Jan"; T "2024"].

Section Props.
Context (search : template -> text -> option (nat * nat) -> option (nat * nat)) (defaults : list template).
Notation step := (step search defaults).
Notation run := (run search defaults).

(** The names stay distinct, whatever is added and found *)
Theorem C46_unique sh ops s ans : (forall n, 0 <= hits_of sh n)%Z -> run (init sh) ops = (s, ans) ->
  NoDup (map (fun e => t_name (d_t e)) (ts s)).
Proof. intros H R. exact (i_nodup _ _ (run_inv _ _ _ _ _ _ _ (init_inv sh H) R)). Qed.

(** A search for a date leaves the same templates, each once *)
Theorem C46_kept sh ops s ans line now s' a : (forall n, 0 <= hits_of sh n)%Z -> NoDup (map t_name defaults) ->
  run (init sh) ops = (s, ans) -> step s (Line line now) = (s', a) ->
  Permutation (map d_t (at_hand defaults (ts s))) (map d_t (ts s')).
Proof.
  intros H ND R St. pose proof (run_inv _ _ _ _ _ _ _ (init_inv sh H) R) as I.
  destruct (line_spec _ _ _ _ _ _ _ _ I ND St) as (s1 & _ & _ & _ & _ & K). destruct a as [t a b| | | |]; try contradiction.
  - destruct K as (_ & _ & _ & front & passed & e & Pr & _). eapply promoted_perm; eauto.
  - destruct K as [-> _]. apply Permutation_refl.
  - destruct K as (t & a & b & _ & _ & front & e & Pr). eapply promoted_perm; eauto.
Qed.

(** Only the template that found the date moves, and only ahead, past templates it outweighs now or that were not used for five minutes.
    The template that also found the last date stays. *)
Theorem C46_promoted sh ops s ans line now s' t a b : (forall n, 0 <= hits_of sh n)%Z -> NoDup (map t_name defaults) ->
  run (init sh) ops = (s, ans) -> step s (Line line now) = (s', Found t a b) ->
  exists front passed e,
    promoted (at_hand defaults (ts s)) (ts s') t a now front passed e /\
    match passed with [] => True | p :: _ => may_pass (hit now a e) p end /\
    ((exists L a0 b0, last_found None ops ans = Some (L, t, a0, b0)) -> passed = []).
Proof.
  intros H ND R St. pose proof (run_inv _ _ _ _ _ _ _ (init_inv sh H) R) as I.
  destruct (line_spec _ _ _ _ _ _ _ _ I ND St) as (s1 & _ & _ & _ & _ & K).
  destruct K as (_ & _ & _ & front & passed & e & Pr & W & Keep). exists front, passed, e. split; [exact Pr|]. split; [|exact Keep].
  unfold why in W. destruct passed; tauto.
Qed.

(** How far it moves: behind the used ones, or half the way, or one place *)
Theorem C46_distance sh ops s ans line now s' t a b : (forall n, 0 <= hits_of sh n)%Z -> NoDup (map t_name defaults) ->
  Forall (fun t => 0 < t_weight t)%Z defaults ->
  Forall (fun o => match o with Append t => (0 < t_weight t)%Z | Default l => Forall (fun t => 0 < t_weight t)%Z l | _ => True end) ops ->
  run (init sh) ops = (s, ans) -> ~ In IndexErr ans -> step s (Line line now) = (s', Found t a b) ->
  exists front passed e,
    promoted (at_hand defaults (ts s)) (ts s') t a now front passed e /\
    (passed = [] \/ length passed = 1 \/ length front = Nat.div2 (length front + length passed) \/
     (Forall (fun e => 0 < d_hits e)%Z front /\ Forall (fun e => d_hits e = 0%Z) passed)).
Proof.
  intros H ND W1 W2 R NI St. pose proof (run_inv _ _ _ _ _ _ _ (init_inv sh H) R) as I.
  pose proof (run_uinv _ _ _ _ _ _ _ (init_inv sh H) (init_uinv sh) W1 W2 R NI) as U.
  destruct (line_spec _ _ _ _ _ _ _ _ I ND St) as (s1 & Rd & Et & Eu & I1 & K).
  destruct K as (_ & _ & _ & front & passed & e & Pr & W & Keep). exists front, passed, e. split; [exact Pr|].
  unfold why in W. destruct passed as [|p r]; [auto|right]. destruct W as [_ [W|[[_ W]| ->]]]; [|right; left; exact W|left; reflexivity].
  destruct (unused s =? length (front ++ p :: r)) eqn:E.
  { rewrite app_length in E. cbn [length] in E. destruct r; [left; reflexivity|]. cbn [length] in E. lia. }
  do 2 right. destruct U as [(u & v & E1 & L & Hu & Hv) _]. destruct Pr as [rest P1 _ _].
  assert (Q : at_hand defaults (ts s) = u ++ (match ts s with [] => map fresh defaults | _ => v end)).
  { rewrite E1. destruct (u ++ v) as [|x y] eqn:D; [|cbn; auto]. apply app_eq_nil in D as [-> ->]. reflexivity. }
  rewrite Q in P1. apply app_inv_length in P1 as [-> P2]; [|lia]. split; [exact Hu|].
  assert (F : Forall (fun e => d_hits e = 0%Z) (match ts s with [] => map fresh defaults | _ => v end)).
  { destruct (ts s); auto. apply Forall_forall. intros x Hx. apply in_map_iff in Hx as (y & <- & _). reflexivity. }
  rewrite P2 in F. apply (Forall_app _ (p :: r)) in F. tauto.
Qed.

(** So the templates that ever found a date stand before all others (as long as no search ended in an error) *)
Theorem C46_used_first sh ops s ans : (forall n, 0 <= hits_of sh n)%Z ->
  Forall (fun t => 0 < t_weight t)%Z defaults ->
  Forall (fun o => match o with Append t => (0 < t_weight t)%Z | Default l => Forall (fun t => 0 < t_weight t)%Z l | _ => True end) ops ->
  run (init sh) ops = (s, ans) -> ~ In IndexErr ans -> used_first (ts s).
Proof.
  intros H W1 W2 R NI. pose proof (run_uinv _ _ _ _ _ _ _ (init_inv sh H) (init_uinv sh) W1 W2 R NI) as U.
  destruct U as [(u & v & E1 & L & Hu & Hv) _]. exists u, v. auto.
Qed.

(** A line without a date changes nothing; one that ends in an error counts for its template, which stays where it is *)
Theorem C46_others sh ops s ans line now s' a : (forall n, 0 <= hits_of sh n)%Z -> NoDup (map t_name defaults) ->
  run (init sh) ops = (s, ans) -> step s (Line line now) = (s', a) ->
  match a with
  | Nothing => ts s' = at_hand defaults (ts s)
  | IndexErr => exists front e rest t k, at_hand defaults (ts s) = front ++ e :: rest /\ ts s' = front ++ hit now k e :: rest /\ d_t e = t
  | Found _ _ _ => True
  | DupErr | Done => False
  end.
Proof.
  intros H ND R St. pose proof (run_inv _ _ _ _ _ _ _ (init_inv sh H) R) as I.
  destruct (line_spec _ _ _ _ _ _ _ _ I ND St) as (s1 & _ & _ & _ & _ & K). destruct a as [t a b| | | |]; auto.
  - now destruct K.
  - destruct K as (t & a & b & _ & _ & front & e & [rest P1 P2 P3]). exists front, e, rest, t, a. auto.
Qed.

(** Adding a template: at the end, unless there is one of that name *)
Theorem C46_append sh ops s ans t s' a : (forall n, 0 <= hits_of sh n)%Z ->
  run (init sh) ops = (s, ans) -> step s (Append t) = (s', a) ->
  (In (t_name t) (map (fun e => t_name (d_t e)) (ts s)) /\ a = DupErr /\ s' = s) \/
  (~ In (t_name t) (map (fun e => t_name (d_t e)) (ts s)) /\ a = Done /\ ts s' = ts s ++ [fresh t]).
Proof.
  intros H R St. pose proof (run_inv _ _ _ _ _ _ _ (init_inv sh H) R) as I. cbn [DateDetector_Model.step] in St.
  rewrite (append_t_spec _ _ _ _ I) in St. destruct (inb (t_name t) (map tname (ts s))) eqn:E; injection St as <- <-.
  - left. apply inb_In in E. auto.
  - right. apply inb_false in E. auto.
Qed.
(** Adding the default templates: those whose name is not there yet.  An empty detector takes them only if their names are distinct *)
Theorem C46_default sh ops s ans l s' a : (forall n, 0 <= hits_of sh n)%Z ->
  run (init sh) ops = (s, ans) -> step s (Default l) = (s', a) -> ts s <> [] \/ NoDup (map t_name l) ->
  a = Done /\ ts s' = ts s ++ map fresh (news (map (fun e => t_name (d_t e)) (ts s)) l).
Proof.
  intros H R St C. pose proof (run_inv _ _ _ _ _ _ _ (init_inv sh H) R) as I. cbn [DateDetector_Model.step] in St. unfold add_default in St.
  destruct (append_all_spec _ l s (negb (length (ts s) =? 0)) I) as [nm Q].
  { destruct (ts s) eqn:E; [right|left; reflexivity]. destruct C as [C|C]; [contradiction|exact C]. }
  rewrite Q in St. injection St as <- <-. auto.
Qed.
(** What other jails find with the same templates does not touch the list *)
Theorem C46_elsewhere s n s' a : step s (Elsewhere n) = (s', a) -> ts s' = ts s /\ last_seen s' = last_seen s.
Proof. intros H. injection H as <- _. auto. Qed.

(** C63: the answer for a line.  Which template is chosen is said in [chosen]; it depends on the order and the hits of the templates and
    on the last line with a date.  There is at most one. *)
Theorem C63_found sh ops s ans line now t a b : (forall n, 0 <= hits_of sh n)%Z -> NoDup (map t_name defaults) -> search_ok search ->
  run (init sh) ops = (s, ans) ->
  (snd (step s (Line line now)) = Found t a b <->
   chosen search (at_hand defaults (ts s)) (last_found None ops ans) (shared s) line t a b /\ a < length line).
Proof.
  intros H ND Ok R. pose proof (run_inv _ _ _ _ _ _ _ (init_inv sh H) R) as I.
  destruct (step s (Line line now)) as [s' x] eqn:St. cbn [snd]. destruct (line_spec _ _ _ _ _ _ _ _ I ND St) as (s1 & _ & _ & _ & _ & K).
  split.
  - intros ->. tauto.
  - intros [C L]. destruct x as [t' a' b'| | | |]; try contradiction.
    + destruct K as [C' _]. destruct (chosen_unique _ _ _ _ _ _ _ _ _ _ _ C C') as (-> & -> & ->). reflexivity.
    + destruct K as (_ & N1 & N2). destruct (chosen_some _ _ _ _ _ _ _ _ C) as [Q|(i & e & a' & b' & Q)]; [contradiction|]. now apply N2 in Q.
    + destruct K as (t' & a' & b' & C' & Q & _). destruct (chosen_unique _ _ _ _ _ _ _ _ _ _ _ C C') as (-> & -> & ->).
      destruct (chosen_in _ _ _ _ _ _ _ _ Ok C) as [L1 L2]. destruct Q as [Q|Q]; [lia|].
      exfalso. now apply (last_char_ok line a' b').
Qed.
(** No date is found only if no template finds one, in the line or at the place of the last date *)
Theorem C63_nothing sh ops s ans line now : (forall n, 0 <= hits_of sh n)%Z -> NoDup (map t_name defaults) ->
  run (init sh) ops = (s, ans) ->
  (snd (step s (Line line now)) = Nothing <->
   retry search (last_found None ops ans) line = None /\ forall e, In e (at_hand defaults (ts s)) -> search (d_t e) line None = None).
Proof.
  intros H ND R. pose proof (run_inv _ _ _ _ _ _ _ (init_inv sh H) R) as I.
  destruct (step s (Line line now)) as [s' x] eqn:St. cbn [snd]. destruct (line_spec _ _ _ _ _ _ _ _ I ND St) as (s1 & _ & _ & _ & _ & K).
  split.
  - intros ->. destruct K as (_ & N1 & N2). split; [exact N1|]. intros e He. apply In_nth_error in He as [i Hi].
    destruct (search (d_t e) line None) as [[a b]|] eqn:E; auto. exfalso.
    apply (N2 i e a b). split; [exact Hi|]. split; [exact E|]. intros (Aw & L & a0 & b0 & Em).
    unfold retry in N1. rewrite Em in N1, Aw. rewrite Aw in N1. congruence.
  - intros [N1 N2].
    assert (NC : forall t a b, ~ chosen search (at_hand defaults (ts s)) (last_found None ops ans) (shared s) line t a b).
    { intros t a b C. destruct (chosen_some _ _ _ _ _ _ _ _ C) as [Q|(i & e & a' & b' & Q1 & Q2 & _)]; [contradiction|].
      apply nth_error_In, N2 in Q1. congruence. }
    destruct x as [t' a' b'| | | |]; try contradiction; auto.
    + destruct K as [C' _]. now apply NC in C'.
    + destruct K as (t' & a' & b' & C' & _). now apply NC in C'.
Qed.
(** The search ends in an error if, and only if, the chosen template matches nothing but the end of the line *)
Theorem C63_error sh ops s ans line now : (forall n, 0 <= hits_of sh n)%Z -> NoDup (map t_name defaults) -> search_ok search ->
  run (init sh) ops = (s, ans) ->
  (snd (step s (Line line now)) = IndexErr <->
   exists t, chosen search (at_hand defaults (ts s)) (last_found None ops ans) (shared s) line t (length line) (length line)).
Proof.
  intros H ND Ok R. pose proof (run_inv _ _ _ _ _ _ _ (init_inv sh H) R) as I.
  destruct (step s (Line line now)) as [s' x] eqn:St. cbn [snd]. destruct (line_spec _ _ _ _ _ _ _ _ I ND St) as (s1 & _ & _ & _ & _ & K).
  split.
  - intros ->. destruct K as (t & a & b & C & Q & _). exists t. destruct (chosen_in _ _ _ _ _ _ _ _ Ok C) as [L1 L2].
    destruct (Nat.lt_ge_cases a (length line)) as [G|G].
    + exfalso. destruct Q as [Q|Q]; [lia|]. now apply (last_char_ok line a b).
    + replace a with (length line) in * by lia. replace b with (length line) in * by lia. exact C.
  - intros [t C]. destruct x as [t' a' b'| | | |]; try contradiction; auto.
    + destruct K as (C' & L & _). destruct (chosen_unique _ _ _ _ _ _ _ _ _ _ _ C C') as (-> & <- & <-). lia.
    + destruct K as (_ & N1 & N2). destruct (chosen_some _ _ _ _ _ _ _ _ C) as [Q|(i & e & a' & b' & Q)]; [contradiction|]. now apply N2 in Q.
Qed.
(** A date at the place of the last one, between the same signs, is found by the same template, whatever others there are *)
Theorem C63_again sh ops s ans line now L t a b : (forall n, 0 <= hits_of sh n)%Z -> NoDup (map t_name defaults) -> search_ok search ->
  run (init sh) ops = (s, ans) -> last_found None ops ans = Some (L, t, a, b) ->
  same_place L line a b = true -> search t line (if t_begin t || t_end t then None else Some (a, b)) = Some (a, b) -> a < length line ->
  snd (step s (Line line now)) = Found t a b.
Proof.
  intros H ND Ok R Lf Sp Se La. apply (C63_found sh ops s ans); auto. split; [|exact La]. rewrite Lf. apply by_last.
  exists L, a, b. split; auto. split; [|auto]. unfold retry, asked_whole. rewrite Sp. cbn [negb]. rewrite orb_false_r.
  destruct (t_begin t || t_end t); exact Se.
Qed.
End Props.

(** ** C64: patterns *)
Section Patterns.
Context (build : string -> string -> option template).
(** A pattern with a percent sign is read as itself, whatever was read before *)
Theorem C64_own ps p r c : has_char "%" p = true -> plain p -> of_patterns build [] ps = (r, c) ->
  fst (of_pattern build c p) = match build p p with Some t => Single t | None => Invalid end.
Proof.
  intros Hp (P1 & P2 & P3 & P4) R.
  destruct (of_patterns_ok build ps [] [] r c) as (ps' & C & _); auto. { intros k t; discriminate. }
  destruct (of_pattern build c p) as [a c'] eqn:E. cbn [fst]. destruct (of_pattern_ok build _ _ _ _ _ C E) as (_ & S1 & S2).
  assert (Kp : pkey p = p) by (unfold pkey; now rewrite Hp).
  assert (Src : source p = p).
  { unfold source. destruct (eqb (pkey p) "{NONE}"%string) eqn:Q; auto. apply eqb_true in Q. contradiction. }
  destruct (dget (pkey p) c) as [t|] eqn:G.
  - unfold of_pattern in E. cbv zeta in E. rewrite G in E. assert (a = Single t) as -> by congruence.
    destruct (S1 t eq_refl) as (q & _ & Kq & B).
    assert (Hq : has_char "%" q = true) by (rewrite <- pkey_percent, Kq, pkey_percent; exact Hp).
    assert (q = p) as -> by (unfold pkey in Kq; rewrite Hq, Hp in Kq; exact Kq). rewrite Src, Kp in B. now rewrite B.
  - rewrite S2 by auto.
    destruct (eqb (pkey p) "{^LN-BEG}"%string) eqn:Q1; [apply eqb_true in Q1; contradiction|].
    destruct (eqb (pkey p) "{DEFAULT}"%string) eqn:Q2; [apply eqb_true in Q2; contradiction|].
    rewrite P4, Src, Kp. reflexivity.
Qed.
(** A template always comes from a pattern that was given, and that differs from this one at most in its case *)
Theorem C64_given ps p r c t : of_patterns build [] ps = (r, c) -> fst (of_pattern build c p) = Single t ->
  exists q, In q (ps ++ [p]) /\ pkey q = pkey p /\ build (if eqb (pkey p) "{NONE}"%string then "{UNB}^"%string else q) (pkey p) = Some t.
Proof.
  intros R. destruct (of_patterns_ok build ps [] [] r c) as (ps' & C & Inc); auto. { intros k t'; discriminate. }
  destruct (of_pattern build c p) as [a c'] eqn:E. cbn [fst]. destruct (of_pattern_ok build _ _ _ _ _ C E) as (_ & S1 & _).
  intros ->. destruct (S1 t eq_refl) as (q & Hq & Kq & B). exists q. split; [|split; auto].
  - apply in_app_iff. destruct Hq as [<-|Hq]; [right; cbn; auto|]. destruct (Inc _ Hq) as [[]|Hi]; auto.
  - unfold source in B. now rewrite Kq in B.
Qed.
(** The first use of a pattern *)
Theorem C64_first p : fst (of_pattern build [] p) =
  if eqb (pkey p) "{^LN-BEG}"%string then DefaultsAtBegin else if eqb (pkey p) "{DEFAULT}"%string then AllDefaults
  else if has_sub "{DATE}" (pkey p) then WithDate
  else match build (if eqb (pkey p) "{NONE}"%string then "{UNB}^"%string else p) (pkey p) with Some t => Single t | None => Invalid end.
Proof.
  unfold of_pattern. cbn [dget]. cbv zeta. destruct (eqb (pkey p) "{^LN-BEG}"%string); auto. destruct (eqb (pkey p) "{DEFAULT}"%string); auto.
  destruct (has_sub "{DATE}" (pkey p)); auto.
  destruct (build (if eqb (pkey p) "{NONE}"%string then "{UNB}^"%string else p) (pkey p)); auto.
Qed.
End Patterns.

(** ** Cases *)
Lemma find_ok p : forall l i k, find p l i = Some k -> i <= k /\ k - i + length p <= length l.
Proof.
  induction l as [|c l IH]; intros i k; cbn [find].
  - destruct (eqb (firstn (length p) []) p) eqn:E; [|discriminate]. intros H. injection H as <-. apply eqb_true in E.
    rewrite firstn_nil in E. subst p. cbn. lia.
  - destruct (eqb (firstn (length p) (c :: l)) p) eqn:E.
    + intros H. injection H as <-. apply eqb_true in E. apply (f_equal (@length _)) in E. rewrite firstn_length in E. lia.
    + intros H. apply IH in H. cbn [length]. lia.
Qed.
Lemma lit_ok : search_ok lit.
Proof.
  intros t line part a b. unfold lit.
  assert (Q : fst (match part with Some (x, y) => (Nat.min x (length line), y) | None => (0, length line) end) <= length line)
    by (destruct part as [[x y]|]; cbn; lia).
  destruct (match part with Some (x, y) => (Nat.min x (length line), y) | None => (0, length line) end) as [x z]. cbn [fst] in Q.
  destruct (find (tx (t_name t)) (firstn (z - x) (skipn x line)) 0) as [k|] eqn:F; [|discriminate].
  intros H. assert (a = x + k /\ b = x + k + length (tx (t_name t))) as [-> ->] by (split; congruence).
  apply find_ok in F. rewrite firstn_length, skipn_length in F. lia.
Qed.
Lemma three_names : NoDup (map t_name three).
Proof. repeat constructor; cbn; intuition discriminate. Qed.
Lemma no_hits n : (0 <= hits_of [] n)%Z.
Proof. cbn. lia. Qed.

(** Two lines with different dates: the second template, then the third, which goes ahead of the never used first one.  The answers
    meet the hypotheses of the theorems above. *)
Definition lines : list op := [Line (tx "Jan 5 12:00") 1000; Line (tx "x 2024 y") 1001; Line (tx "no date") 1002; Line (tx "z 2024 y") 1003].
Example lines_answers : snd (run lit three (init []) lines) = [Found (T "Jan") 0 3; Found (T "2024") 2 6; Nothing; Found (T "2024") 2 6].
Proof. vm_compute. reflexivity. Qed.
Example lines_order : map (fun e => (t_name (d_t e), d_hits e)) (ts (fst (run lit three (init []) lines))) = [("Jan", 1%Z); ("2024", 2%Z); ("12:", 0%Z)]%string.
Proof. vm_compute. reflexivity. Qed.
(** A template passes another that was not used for five minutes *)
Example passes : exists front passed e s s', fst (run lit three (init []) lines) = s /\
  step lit three s (Line (tx "12: up") 1400) = (s', Found (T "12:") 0 3) /\
  promoted (ts s) (ts s') (T "12:") 0 1400 front passed e /\ map d_t front = [T "Jan"] /\ map d_t passed = [T "2024"].
Proof.
  do 5 eexists. split; [reflexivity|]. split; [vm_compute; reflexivity|]. split.
  - eapply (promoted_intro _ _ _ _ _ [_] [_] _ []); vm_compute; reflexivity.
  - split; reflexivity.
Qed.
(** A line of the same form is dated by the same template although another one stands ahead of it *)
Example again : last_found None lines (snd (run lit three (init []) lines)) = Some (tx "z 2024 y", T "2024", 2, 6) /\
  same_place (tx "z 2024 y") (tx "a 2024 Jan") 2 6 = true /\ lit (T "2024") (tx "a 2024 Jan") (Some (2, 6)) = Some (2, 6).
Proof. vm_compute. auto. Qed.

(** It is not always the nearest date that is found: the last template of the list is taken although another one finds a date more to
    the left *)
Theorem C63_nearest_refuted : exists l line s a,
  step lit l (init []) (Line line 1000) = (s, Found (T "Jan") a (a + 3)) /\ lit (T "12:") line None = Some (4, 7) /\ 4 < a /\ l = [T "12:"; T "Jan"].
Proof. exists [T "12:"; T "Jan"], (tx "ssh 12:00 on Jan 5"). eexists. exists 13. split; [vm_compute; reflexivity|]. split; [vm_compute; reflexivity|]. split; [lia|reflexivity]. Qed.
(** The date found depends on the lines before, even with one template *)
Theorem C63_history_refuted : exists l line ops s1 s2 a b,
  step lit l (init []) (Line line 1000) = (s1, Found (T "12:") a (a + 3)) /\
  step lit l (fst (run lit l (init []) ops)) (Line line 1000) = (s2, Found (T "12:") b (b + 3)) /\ l = [T "12:"] /\ a <> b.
Proof.
  exists [T "12:"], (tx "12: at 12: "), [Line (tx "was at 12: ") 999]. do 2 eexists. exists 0, 7. split; [vm_compute; reflexivity|].
  split; [vm_compute; reflexivity|]. vm_compute. split; [reflexivity|discriminate].
Qed.
(** An empty line in a log without dates (the empty template of datepattern {NONE}) is an error *)
Theorem C63_empty_line_refuted : exists l s, step lit l (init []) (Line [] 1000) = (s, IndexErr) /\ l = [T ""].
Proof. exists [T ""]. eexists. split; [vm_compute; reflexivity|reflexivity]. Qed.
(** After such an error a used template may stand behind an unused one *)
Theorem C46_used_first_refuted : exists l ops s ans, run lit l (init []) ops = (s, ans) /\ ~ used_first (ts s).
Proof.
  exists [T "Jan"; T "12:"; T ""], [Line [] 1000]. do 2 eexists. split; [vm_compute; reflexivity|].
  intros (u & v & E & Hu & Hv). cbn [ts] in E. destruct u as [|x u]; cbn in E.
  - subst v. inversion Hv as [|? ? _ Q]; subst. inversion Q as [|? ? _ Q2]; subst. inversion Q2 as [|? ? Q3 _]; subst. discriminate.
  - injection E as <- _. inversion Hu as [|? ? Q _]; subst. discriminate.
Qed.
(** C64: two patterns without a percent sign that differ in their case are taken for the same: \s for \S *)
Theorem C64_case_refuted : exists (build : string -> string -> option template) p q t,
  build p (pkey p) = Some t /\ build q (pkey q) <> Some t /\ plain q /\
  fst (of_pattern build (snd (of_patterns build [] [p])) q) = Single t.
Proof.
  exists (fun p _ => Some (T p)), "^\s{EPOCH}"%string, "^\S{EPOCH}"%string, (T "^\s{EPOCH}").
  split; [reflexivity|]. split; [discriminate|]. split; [|vm_compute; reflexivity].
  repeat split; vm_compute; discriminate.
Qed.
Example own : fst (of_pattern (fun p _ => Some (T p)) (snd (of_patterns (fun p _ => Some (T p)) [] ["%y"; "{NONE}"]%string)) "%Y"%string) = Single (T "%Y").
Proof. vm_compute. reflexivity. Qed.

Print Assumptions C46_unique.
Print Assumptions C46_kept.
Print Assumptions C46_promoted.
Print Assumptions C46_distance.
Print Assumptions C46_used_first.
Print Assumptions C46_others.
Print Assumptions C46_append.
Print Assumptions C46_default.
Print Assumptions C46_elsewhere.
Print Assumptions C63_found.
Print Assumptions C63_nothing.
Print Assumptions C63_error.
Print Assumptions C63_again.
Print Assumptions C64_own.
Print Assumptions C64_given.
Print Assumptions C64_first.
Print Assumptions C63_nearest_refuted.
Print Assumptions C63_history_refuted.
Print Assumptions C63_empty_line_refuted.
Print Assumptions C46_used_first_refuted.
Print Assumptions C64_case_refuted.
