(** Of what a field can take of a text that begins with a text of the field, this one is tried before
    those that would let the rest match. *)
From Coq Require Import ZifyBool ZifyNat.
From Verif Require Import Base Text Strptime_Model Strptime_Spec Template_Model Template_Spec Template_Proofs Template_Proofs2 Template_Proofs3.
Local Open Scope string_scope. Local Open Scope list_scope. Local Open Scope nat_scope.

Definition fixed_b (t : token) : bool :=
  match t with Ta | TA | Tb | TB | Tp | TY | Ty | Tw | Exd | Exm | ExH | ExM | ExS | ExY | Exy => true | _ => false end.
Lemma fixed_iff t : fixed t <-> fixed_b t = true.
Proof. unfold fixed. destruct t; cbn; intuition discriminate. Qed.
Definition goes_on (t : token) (c : ascii) : bool :=
  negb (fixed_b t) && (is_digit c || (match t with Tz => true | _ => false end && eqb c ":"%char)).
Lemma goes_on_iff t c : may_continue t c <-> goes_on t c = true.
Proof.
  unfold may_continue, goes_on. rewrite fixed_iff. rewrite andb_true_iff, negb_true_iff, orb_true_iff, andb_true_iff. rewrite <- (eqb_eq c ":"%char).
  destruct (fixed_b t) eqn:F; [intuition|]. destruct t; try discriminate F; intuition discriminate.
Qed.
Definition digit_at (n : nat) (v : text) : bool := match nth_error v n with Some c => is_digit c | None => false end.
Fixpoint first_ok (fx : bool) (v : text) (ls : list nat) : bool :=
  match ls with
  | [] => false
  | n :: r => (n =? length v) || (negb fx && (1 <=? n) && (n <? length v) && digit_at n v && digit_at (n - 1) v && first_ok fx v r)
  end.
Definition first_in (fx : bool) (v : text) (ls : list nat) : Prop :=
  exists pre post, ls = pre ++ length v :: post /\
    forall n, In n pre -> fx = false /\ 1 <= n < length v /\ digit_at n v = true /\ digit_at (n - 1) v = true.
Lemma first_ok_spec fx v ls : first_ok fx v ls = true -> first_in fx v ls.
Proof.
  induction ls as [|n r IH]; [discriminate|]. cbn [first_ok]. intros H. apply orb_true_iff in H as [H|H].
  - apply Nat.eqb_eq in H as ->. exists [], r. split; [reflexivity|]. intros n [].
  - repeat (apply andb_true_iff in H as [H ?]). destruct IH as (pre & post & -> & P); [assumption|]. exists (n :: pre), post. split; [reflexivity|].
    intros m [<-|M]; [|now apply P]. repeat split; try lia; try assumption.
Qed.
Lemma one_length ci r k v fx : (forall s, lang ci r s -> length s = k) -> lang ci r v -> first_in fx v (lens ci r v).
Proof.
  intros H V. pose proof (proj2 (lens_whole ci r v) V) as I. rewrite (H v V) in I. exists [].
  assert (A : forall n, In n (lens ci r v) -> n = k).
  { intros n N. apply lens_iff in N as [L N]. rewrite <- (H _ N). now rewrite firstn_length_le. }
  destruct (lens ci r v) as [|n post]; [destruct I|]. exists post. split; [|intros m []]. cbn [app]. rewrite (H v V). f_equal. apply A. now left.
Qed.
(** for the listed fields and offsets, by going through the list *)
Definition stop_ok (ci : bool) (r : re) (t : token) (v : text) : bool :=
  forallb (fun f => forallb (fun c => goes_on t c || negb (f c)) chars) (nexts ci r v).
Definition listed (t : token) : bool := match t with TY | Tf | Tz | ExY => false | _ => true end.
Lemma all_first : forallb (fun t => if listed t then forallb (fun ci => let r := token_re 0 t in
    forallb (fun v => first_ok (fixed_b t) v (lens ci r v) && stop_ok ci r t v) (words ci r)) [true; false] else true) tokens = true.
Proof. vm_cast_no_check (eq_refl true). Qed.
Definition zone_check (ci : bool) (v : text) : bool := first_ok true v (lens ci (token_re 0 Tz) v) && stop_ok ci (token_re 0 Tz) Tz v.
Lemma zone_first ci : forallb (zone_check ci) (words ci (token_re 0 Tz)) = true.
Proof. destruct ci; vm_cast_no_check (eq_refl true). Qed.

Lemma tok_first y ci t v q : started y -> field_text y ci t v -> (forall c r, q = c :: r -> goes_on t c = false) ->
  first_in (fixed_b t || match t with Tz => true | _ => false end) v (lens ci (token_re y t) (v ++ q)).
Proof.
  intros Y F Q. pose proof (proj2 (field_iff y ci t v Y) F) as L.
  enough (E : first_in (fixed_b t || match t with Tz => true | _ => false end) v (lens ci (token_re y t) v)
              /\ forall c f, goes_on t c = false -> In f (nexts ci (token_re y t) v) -> f c = false).
  { destruct E as [E N]. destruct q as [|c q]; [now rewrite app_nil_r|]. rewrite nexts_stop; [exact E|]. intros f If. apply N; [|exact If]. now apply (Q c q). }
  clear Q q. destruct (listed t) eqn:LI.
  - rewrite (token_re_year y 0 t) in * by (intros ->; discriminate). apply words_iff in L.
    pose proof all_first as A. eapply forallb_forall in A; [|apply (all_tokens t)]. rewrite LI in A.
    eapply forallb_forall in A; [|instantiate (1 := ci); destruct ci; cbn; auto]. cbn beta zeta in A. eapply forallb_forall in A; [|exact L].
    apply andb_true_iff in A as [A B]. split.
    + apply first_ok_spec. destruct t; try discriminate LI; cbn [fixed_b] in *; exact A.
    + intros c f C If. unfold stop_ok in B. eapply forallb_forall in B; [|exact If]. eapply forallb_forall in B; [|apply (all_chars c)].
      rewrite C in B. now destruct (f c).
  - destruct t; try discriminate LI; cbn [fixed_b orb].
    + split.
      * apply (one_length ci (token_re y TY) 4); [|exact L]. intros s S4. apply digits_lang in S4 as [S4 _]. lia.
      * intros c f _ If. apply nexts_most in If. cbn [token_re most] in If. apply digits_lang in L as [L _]. lia.
    + apply digits_lang in L as [B D]. cbn [token_re lens nexts]. split.
      * exists []. assert (X : run_of (accepts ci is_digit) v = length v).
        { apply Nat.le_antisymm; [apply run_le|]. apply run_most; [lia|]. rewrite firstn_all. eapply Forall_impl; [|exact D]. intros c. now rewrite accepts_digit. }
        rewrite X. replace (Nat.min 6 (length v)) with (length v) by lia. destruct (length v) as [|m] eqn:E; [lia|]. exists (down 1 m).
        split; [reflexivity|]. intros n [].
      * intros c f C If. destruct ((length v <? 6) && forallb (accepts ci is_digit) v); [|destruct If]. destruct If as [<-|[]]. rewrite accepts_digit.
        unfold goes_on in C. cbn in C. now rewrite orb_false_r in C.
    + rewrite (token_re_year y 0 Tz) in * by discriminate. apply words_iff in L. pose proof (proj1 (forallb_forall (zone_check ci) _) (zone_first ci) v L) as A. unfold zone_check in A.
      apply andb_true_iff in A as [A B]. split; [now apply first_ok_spec|].
      intros c f C If. unfold stop_ok in B. eapply forallb_forall in B; [|exact If]. eapply forallb_forall in B; [|apply (all_chars c)].
      rewrite C in B. now destruct (f c).
    + assert (L4 : forall s, lang ci (token_re y ExY) s -> length s = 4).
      { intros s H. apply ExY_lang in H as (n & st & R & [<-|[]] & ->); [|exact Y]. unfold started in Y.
        assert (YQ : (10 * ((y + 3) / 10) <= y + 3)%Z) by (pose proof (Z.div_mod (y + 3) 10 ltac:(lia)); pose proof (Z.mod_pos_bound (y + 3) 10 ltac:(lia)); lia).
        assert (N : In n (range 1000 9999)) by (apply In_range; lia).
        assert (X : forallb (fun n => length (dec n) =? 4) (range 1000 9999) = true) by (vm_cast_no_check (eq_refl true)).
        eapply forallb_forall in X; [|exact N]. now apply Nat.eqb_eq. }
      split; [now apply (one_length ci _ 4)|].
      intros c f _ If. exfalso. apply nexts_most in If. rewrite (L4 v L) in If. cbn [token_re most] in If.
      assert (M : most (any (map word (decades y))) <= 3); [|unfold D in If; cbn [most] in If; lia].
      clear. assert (H : forall l, (forall p, In p l -> most (word p) <= 3) -> most (any (map word l)) <= 3).
      { induction l as [|p l IH]; intros H; [cbn; lia|]. destruct l as [|p' l]; [apply H; now left|].
        change (any (map word (p :: p' :: l))) with (Alt (word p) (any (map word (p' :: l)))). cbn [most].
        apply Nat.max_lub; [apply H; now left|]. apply IH. intros x X. apply H. now right. }
      apply H. intros p P. unfold decades in P. apply in_map_iff in P as (n & <- & _). generalize (dec n). intros u.
      destruct u as [|a [|b [|c u]]]; cbn; lia.
Qed.
