(** At most one template is chosen; patterns and their cache. *)
From Coq Require Import QArith Permutation ZifyBool ZifyNat.
From Verif Require Import Base Text DateDetector_Model DateDetector_Spec DateDetector_Proofs DateDetector_Proofs2 DateDetector_Proofs3
  DateDetector_Proofs4 DateDetector_Proofs5.
Local Open Scope nat_scope.

Lemma last_char_ok line a b : a < length line -> a <= b -> b <= length line -> last_char line b <> None.
Proof. intros H1 H2 H3. destruct b; cbn [last_char]; apply nth_error_Some; lia. Qed.

Section Search.
Context (search : template -> text -> option (nat * nat) -> option (nat * nat)) (defaults : list template).

Lemma kept_unique n m line t a b t' a' b' : kept search n m line t a b -> kept search n m line t' a' b' -> t = t' /\ a = a' /\ b = b'.
Proof.
  intros (L & a0 & b0 & -> & R & _) (L' & a1 & b1 & E & R' & _). injection E as -> <- -> ->. rewrite R in R'. injection R' as <- <-. auto.
Qed.
Lemma reserved_kept n m line t a b t' a' b' : reserved search n m line t a b -> kept search n m line t' a' b' -> False.
Proof.
  intros (L & a0 & b0 & -> & R & N) (L' & a1 & b1 & E & R' & K). injection E as -> -> -> ->. rewrite R in R'. injection R' as <- <-.
  apply N. exists L', a1, b1. auto.
Qed.
Lemma reserved_unique n m line t a b t' a' b' : reserved search n m line t a b -> reserved search n m line t' a' b' -> t = t' /\ a = a' /\ b = b'.
Proof.
  intros (L & a0 & b0 & -> & R & _) (L' & a1 & b1 & E & R' & _). injection E as -> <- -> ->. rewrite R in R'. injection R' as <- <-. auto.
Qed.
Lemma says_fun l m line i e a b e' a' b' : says search l m line i e a b -> says search l m line i e' a' b' -> e = e' /\ a = a' /\ b = b'.
Proof. intros (H1 & H2 & _) (H3 & H4 & _). rewrite H1 in H3. injection H3 as <-. rewrite H2 in H4. injection H4 as <- <-. auto. Qed.

Lemma chosen_unique l m sh line t a b t' a' b' :
  chosen search l m sh line t a b -> chosen search l m sh line t' a' b' -> t = t' /\ a = a' /\ b = b'.
Proof.
  intros [t1 a1 b1 K|i e a1 b1 NK S St F|t1 a1 b1 R F|i e a1 b1 NK S R F]
         [t2 a2 b2 K2|i2 e2 a2 b2 NK2 S2 St2 F2|t2 a2 b2 R2 F2|i2 e2 a2 b2 NK2 S2 R2 F2];
    try solve [exfalso; eauto 6];
    try solve [exfalso; eapply reserved_kept; eauto];
    try solve [exfalso; destruct (F2 _ _ _ _ S) as [Q _]; auto];
    try solve [exfalso; destruct (F _ _ _ _ S2) as [Q _]; auto].
  - eapply kept_unique; eauto.
  - destruct (lt_eq_lt_dec i i2) as [[Q|Q]|Q].
    + exfalso. now apply (F2 _ _ _ _ Q S).
    + subst i2. destruct (says_fun _ _ _ _ _ _ _ _ _ _ S S2) as (-> & -> & ->). auto.
    + exfalso. now apply (F _ _ _ _ Q S2).
  - eapply reserved_unique; eauto.
  - destruct (F _ _ _ _ S2) as [_ Q]. specialize (R2 _ _ _ R). lia.
  - destruct (F2 _ _ _ _ S) as [_ Q]. specialize (R _ _ _ R2). lia.
  - destruct (F _ _ _ _ S2) as (_ & Q1 & Q2). destruct (F2 _ _ _ _ S) as (_ & Q3 & Q4).
    destruct (lt_eq_lt_dec i i2) as [[Q|Q]|Q]; [specialize (Q4 Q); lia| |specialize (Q2 Q); lia].
    subst i2. destruct (says_fun _ _ _ _ _ _ _ _ _ _ S S2) as (-> & -> & ->). auto.
Qed.
Lemma chosen_some l m sh line t a b : chosen search l m sh line t a b ->
  retry search m line <> None \/ exists i e a b, says search l m line i e a b.
Proof.
  intros [t1 a1 b1 (L & a0 & b0 & -> & K & _)|i e a1 b1 NK S St F|t1 a1 b1 (L & a0 & b0 & -> & K & _) F|i e a1 b1 NK S R F];
    [left; congruence|right; eauto|left; congruence|right; eauto].
Qed.
Lemma chosen_in l m sh line t a b : search_ok search -> chosen search l m sh line t a b -> a <= b /\ b <= length line.
Proof.
  intros Ok [t1 a1 b1 (L & a0 & b0 & -> & K & _)|i e a1 b1 NK (_ & S & _) St F|t1 a1 b1 (L & a0 & b0 & -> & K & _) F|i e a1 b1 NK (_ & S & _) R F];
    eauto; unfold retry in K; destruct (asked_whole (Some (L, t1, a0, b0)) line); eauto.
Qed.

(** The answer for a line, with default templates of distinct names *)
Lemma line_spec m s line now s' ans : inv m s -> NoDup (map t_name defaults) -> step search defaults s (Line line now) = (s', ans) ->
  exists s1, ready defaults s = (s1, true) /\ ts s1 = at_hand defaults (ts s) /\ unused s1 = unused s /\ inv m s1 /\
  match ans with
  | Found t a b => chosen search (at_hand defaults (ts s)) m (shared s) line t a b /\ a < length line /\ last_char line b <> None /\
      exists front passed e, promoted (at_hand defaults (ts s)) (ts s') t a now front passed e /\
        why (if unused s =? length (front ++ passed) then S (unused s) else unused s) front passed (hit now a e) /\
        ((exists L a0 b0, m = Some (L, t, a0, b0)) -> passed = [])
  | IndexErr => exists t a b, chosen search (at_hand defaults (ts s)) m (shared s) line t a b /\
      (length line <= a \/ last_char line b = None) /\ exists front e, promoted (at_hand defaults (ts s)) (ts s') t a now front [] e
  | Nothing => ts s' = at_hand defaults (ts s) /\ retry search m line = None /\ forall i e a b, ~ says search (at_hand defaults (ts s)) m line i e a b
  | DupErr | Done => False
  end.
Proof.
  intros I ND H. cbn [step] in H. destruct (ready_ok defaults m s I ND) as (s1 & Rd & Et & El & Eu & Es).
  destruct (match_time_spec _ _ _ _ _ _ _ _ I H) as (_ & s2 & ok & Rd2 & I1 & K). rewrite Rd in Rd2.
  assert (s1 = s2 /\ ok = true) as [<- ->] by (split; congruence).
  exists s1. split; [exact Rd|]. split; [exact Et|]. split; [exact Eu|]. split; [exact I1|]. rewrite Et, Es, Eu in K.
  destruct ans as [t a b| | | |].
  - destruct K as (_ & C & La & Lb & front & passed & e & Pr & [Wy _] & Keep & _). split; [exact C|]. split; [exact La|]. split; [exact Lb|].
    exists front, passed, e. split; [exact Pr|]. split; [exact Wy|]. intros Q. apply Keep. now right.
  - destruct K as (_ & -> & _ & K). auto.
  - now destruct K as [_ K].
  - destruct K; discriminate.
  - exact K.
Qed.

Lemma step_uinv m s o s' ans : inv m s -> uinv s -> Forall (fun t => 0 < t_weight t)%Z defaults ->
  match o with Append t => (0 < t_weight t)%Z | Default l => Forall (fun t => 0 < t_weight t)%Z l | _ => True end ->
  step search defaults s o = (s', ans) -> ans <> IndexErr -> uinv s'.
Proof.
  intros I U D W. destruct o as [t|l|line now|n]; cbn [step].
  - rewrite (append_t_spec m) by auto. destruct (inb (t_name t) (map tname (ts s))); intros H _; injection H as <- <-; auto.
    apply (uinv_append s [t]); auto.
  - unfold add_default. destruct (append_all s l (negb (length (ts s) =? 0))) as [s1 ok] eqn:E. intros H _. injection H as <- <-.
    apply append_all_same in E as (x & E1 & _ & E2 & _ & Inc). apply (uinv_same s s1 x); auto.
    apply Forall_forall. intros t Ht. rewrite Forall_forall in W. auto.
  - intros H. eapply match_time_uinv; eauto.
  - intros H _. injection H as <- <-. apply (uinv_same s _ []); auto. now rewrite app_nil_r.
Qed.
Lemma run_uinv ops : forall m s s' ans, inv m s -> uinv s -> Forall (fun t => 0 < t_weight t)%Z defaults ->
  Forall (fun o => match o with Append t => (0 < t_weight t)%Z | Default l => Forall (fun t => 0 < t_weight t)%Z l | _ => True end) ops ->
  run search defaults s ops = (s', ans) -> ~ In IndexErr ans -> uinv s'.
Proof.
  induction ops as [|o ops IH]; intros m s s' ans I U D W; cbn [run]. { intros H _. injection H as <- <-. exact U. }
  destruct (step search defaults s o) as [s1 a] eqn:S1. destruct (run search defaults s1 ops) as [s2 l] eqn:R.
  intros H NI. injection H as <- <-. inversion W as [|x y W1 W2]; subst. eapply IH; [| | | |exact R|]; auto.
  - eapply step_inv; eauto.
  - eapply step_uinv; eauto. intros ->. apply NI. now left.
  - intros Q. apply NI. now right.
Qed.
Lemma init_uinv sh : uinv (init sh).
Proof. split; [|constructor]. exists [], []. cbn. auto. Qed.
End Search.

(** ** Patterns *)
Lemma has_char_In c s : has_char c s = true <-> In c (list_ascii_of_string s).
Proof.
  induction s as [|d s IH]; cbn; [split; [discriminate|tauto]|]. rewrite orb_true_iff, IH. split; intros [H|H]; auto.
  - apply eqb_true in H. auto.
  - left. subst. apply eqb_refl.
Qed.
Lemma upper_char_percent c : upper_char c = "%"%char -> c = "%"%char.
Proof. destruct c as [[] [] [] [] [] [] [] []]; vm_compute; intros H; congruence. Qed.
Lemma upper_percent s : has_char "%" s = false -> has_char "%" (upper s) = false.
Proof.
  induction s as [|d s IH]; cbn; auto. intros H. apply orb_false_iff in H as [H1 H2]. rewrite IH by auto. rewrite orb_false_r.
  destruct (eqb "%"%char (upper_char d)) eqn:E; auto. apply eqb_true in E. symmetry in E. apply upper_char_percent in E as ->.
  rewrite eqb_refl in H1. discriminate.
Qed.
Lemma pkey_percent p : has_char "%" (pkey p) = has_char "%" p.
Proof. unfold pkey. destruct (has_char "%" p) eqn:E; auto. now apply upper_percent. Qed.

Section Patterns.
Context (build : string -> string -> option template).
Definition source (p : string) : string := if eqb (pkey p) "{NONE}"%string then "{UNB}^"%string else p.
(** Every template in the cache was built from a pattern with this key *)
Definition cache_ok (ps : list string) (c : dict string template) : Prop :=
  forall k t, dget k c = Some t -> exists p, In p ps /\ pkey p = k /\ build (source p) k = Some t.
Lemma of_pattern_ok ps c p a c' : cache_ok ps c -> of_pattern build c p = (a, c') ->
  cache_ok (p :: ps) c' /\ (forall t, a = Single t -> exists q, In q (p :: ps) /\ pkey q = pkey p /\ build (source q) (pkey p) = Some t) /\
  (dget (pkey p) c = None -> a = (if eqb (pkey p) "{^LN-BEG}"%string then DefaultsAtBegin else if eqb (pkey p) "{DEFAULT}"%string then AllDefaults
     else if has_sub "{DATE}" (pkey p) then WithDate else match build (source p) (pkey p) with Some t => Single t | None => Invalid end)).
Proof.
  intros C. unfold of_pattern. cbv zeta.
  assert (Up : cache_ok (p :: ps) c).
  { intros k t H. destruct (C _ _ H) as (q & ? & ? & ?). exists q. cbn; auto. }
  assert (Set_ : forall t, (exists q, In q (p :: ps) /\ pkey q = pkey p /\ build (source q) (pkey p) = Some t) -> cache_ok (p :: ps) (dset (pkey p) t c)).
  { intros t (q & H1 & H2 & H3) k t' H. destruct (eqb k (pkey p)) eqn:E.
    - apply eqb_true in E as ->. rewrite dget_dset_same in H. injection H as <-. eauto.
    - rewrite dget_dset_other in H by (intros ->; rewrite eqb_refl in E; discriminate). apply Up; auto. }
  destruct (dget (pkey p) c) as [t|] eqn:G.
  - intros H. assert (a = Single t /\ c' = dset (pkey p) t c) as [-> ->] by (split; congruence).
    destruct (Up _ _ G) as (q & H1 & H2 & H3). split; [apply Set_; eauto|]. split; [|congruence]. intros t' E. injection E as <-. eauto.
  - fold (source p). intros H. destruct (eqb (pkey p) "{^LN-BEG}"%string); [injection H as <- <-; split; [auto|split; [discriminate|auto]]|].
    destruct (eqb (pkey p) "{DEFAULT}"%string); [injection H as <- <-; split; [auto|split; [discriminate|auto]]|].
    destruct (has_sub "{DATE}" (pkey p)); [injection H as <- <-; split; [auto|split; [discriminate|auto]]|].
    destruct (build (source p) (pkey p)) as [t|] eqn:B.
    + injection H as <- <-. split; [apply Set_; exists p; cbn; auto|]. split; auto. intros t' E. injection E as <-. exists p. cbn; auto.
    + injection H as <- <-. split; [auto|]. split; [discriminate|auto].
Qed.
Lemma of_patterns_ok l : forall ps c r c', cache_ok ps c -> of_patterns build c l = (r, c') -> exists ps', cache_ok ps' c' /\ forall p, In p ps' -> In p ps \/ In p l.
Proof.
  induction l as [|p l IH]; intros ps c r c' C; cbn [of_patterns]. { intros H. injection H as _ <-. eauto. }
  destruct (of_pattern build c p) as [a c1] eqn:E1. destruct (of_patterns build c1 l) as [q c2] eqn:E2. intros H. injection H as _ <-.
  destruct (of_pattern_ok _ _ _ _ _ C E1) as [C1 _]. destruct (IH _ _ _ _ C1 E2) as (ps' & C2 & In2). exists ps'. split; auto.
  intros x Hx. destruct (In2 _ Hx) as [[<-|?]|?]; cbn; auto.
Qed.
Lemma of_patterns_app l1 l2 c : of_patterns build c (l1 ++ l2) =
  let (r1, c1) := of_patterns build c l1 in let (r2, c2) := of_patterns build c1 l2 in (r1 ++ r2, c2).
Proof.
  revert c; induction l1 as [|p l IH]; intros c; cbn [of_patterns app]. { now destruct (of_patterns build c l2). }
  destruct (of_pattern build c p) as [a c1]. rewrite IH. destruct (of_patterns build c1 l) as [r1 c2].
  destruct (of_patterns build c2 l2) as [r2 c3]. reflexivity.
Qed.
End Patterns.
