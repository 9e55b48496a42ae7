(** Python's [re] as a backtracking matcher (no line of /repo): a pattern gets the text that is left and
    what to do with the rest; the first way that leads to a result counts.  Alternatives are tried in
    order, repetitions take as much as possible first. *)
From Verif Require Import Base Text.

Definition rx := forall R : Type, text -> (text -> option R) -> option R.

Definition chr (f : ascii -> bool) : rx := fun R s k => match s with c :: r => if f c then k r else None | [] => None end.
Definition lit (c : ascii) : rx := chr (eqb c).
Definition eps : rx := fun R s k => k s.
Definition cat (a b : rx) : rx := fun R s k => a R s (fun r => b R r k).
Definition alt (a b : rx) : rx := fun R s k => match a R s k with Some x => Some x | None => b R s k end.
Definition opt (a : rx) : rx := alt a eps.
(** [f]* for a set of characters *)
Fixpoint many (f : ascii -> bool) (R : Type) (s : text) (k : text -> option R) : option R :=
  match s with
  | c :: r => if f c then match many f R r k with Some x => Some x | None => k s end else k s
  | [] => k []
  end.
Definition many1 (f : ascii -> bool) : rx := cat (chr f) (many f).
(** (a)* for a pattern that does not match the empty text; at most [n] times *)
Fixpoint rep (n : nat) (a : rx) : rx :=
  match n with
  | O => eps
  | S n => opt (cat a (rep n a))
  end.
Definition star (a : rx) : rx := fun R s k => rep (length s) a R s k.
(** (?=a) *)
Definition ahead (a : rx) : rx := fun R s k => match a unit s (fun _ => Some tt) with Some _ => k s | None => None end.
Definition newline : ascii := ascii_of_N 10.
(** $ *)
Definition eos : rx := fun R s k =>
  match s with
  | [] => k s
  | [c] => if eqb c newline then k s else None
  | _ => None
  end.
(** What a pattern took, from the text before and after it. *)
Definition taken (s r : text) : text := firstn (length s - length r) s.

Notation "a ;; b" := (cat a b) (at level 60, right associativity).
Definition any (_ : ascii) : bool := true.
Definition but (l : text) (c : ascii) : bool := negb (inb c l).
Definition one_of (l : text) (c : ascii) : bool := inb c l.

(** ** Laws *)
Lemma taken_app a b : taken (a ++ b) b = a.
Proof. unfold taken. rewrite app_length, Nat.add_sub, firstn_app, firstn_all, Nat.sub_diag. cbn. apply app_nil_r. Qed.

Definition stops (f : ascii -> bool) (r : text) : Prop := match r with c :: _ => f c = false | [] => True end.
(** The longest run. *)
Fixpoint run (f : ascii -> bool) (s : text) : text * text :=
  match s with
  | c :: r => if f c then let '(a, b) := run f r in (c :: a, b) else ([], s)
  | [] => ([], [])
  end.
Lemma run_spec f s : s = fst (run f s) ++ snd (run f s) /\ Forall (fun c => f c = true) (fst (run f s)) /\ stops f (snd (run f s)).
Proof.
  induction s as [|c s IH]; [cbn; auto|]. cbn [run]. destruct (f c) eqn:E; [|cbn; rewrite E; auto].
  destruct (run f s) as [a b]. cbn [fst snd app] in *. destruct IH as (-> & F & St). auto.
Qed.
Lemma run_app f a b : Forall (fun c => f c = true) a -> stops f b -> run f (a ++ b) = (a, b).
Proof.
  induction a as [|c a IH]; intros F St; cbn [app run].
  - destruct b as [|d b]; [reflexivity|]. cbn in *. now rewrite St.
  - inversion F as [|? ? H1 H2]; subst. rewrite H1, IH; auto.
Qed.
Lemma run_unique f a b a' b' : a ++ b = a' ++ b' -> Forall (fun c => f c = true) a -> stops f b -> Forall (fun c => f c = true) a' -> stops f b' -> a = a' /\ b = b'.
Proof.
  intros E Fa Sb Fa' Sb'. pose proof (run_app f a b Fa Sb) as R. rewrite E, (run_app f a' b' Fa' Sb') in R. injection R as <- <-. auto.
Qed.

(** The repetition takes the longest run if that works. *)
Lemma many_run f R s k x : k (snd (run f s)) = Some x -> many f R s k = Some x.
Proof.
  revert x. induction s as [|c s IH]; intros x H; [exact H|]. cbn [run many] in *. destruct (f c); [|exact H].
  destruct (run f s) as [a b]. cbn [snd] in *. now rewrite (IH x H).
Qed.
(** If the rest must not go on with the same characters, only the longest run counts. *)
Lemma many_exact f R s k : (forall c r, f c = true -> k (c :: r) = None) -> many f R s k = k (snd (run f s)).
Proof.
  intros H. induction s as [|c s IH]; [reflexivity|]. cbn [run many]. destruct (f c) eqn:E; [|reflexivity].
  destruct (run f s) as [a b]. cbn [snd] in *. rewrite IH. destruct (k b); [reflexivity|]. now apply H.
Qed.
Lemma many_total f R s k : (forall r, k r <> None) -> many f R s k = k (snd (run f s)).
Proof.
  intros H. destruct (k (snd (run f s))) eqn:E; [now apply many_run|]. now apply H in E.
Qed.
Lemma many1_exact f R s k : (forall c r, f c = true -> k (c :: r) = None) ->
  many1 f R s k = match run f s with ([], _) => None | (_, r) => k r end.
Proof.
  intros H. unfold many1, cat, chr. destruct s as [|c s]; [reflexivity|]. cbn [run]. destruct (f c) eqn:E; [|reflexivity].
  rewrite many_exact by exact H. destruct (run f s) as [a b]. reflexivity.
Qed.
