(** Proofs about flags and named groups (see FailRegex_Props.v). *)
From Verif Require Import Base Text Backtrack Tags_Model FailRegex_Model FailRegex_Spec FailRegex_Proofs.
From Coq Require Import Sorted Permutation ZifyBool ZifyNat.
Local Open Scope list_scope.
Local Open Scope Z_scope.

Lemma drop_lit_app l r : drop_lit l (l ++ r) = Some r.
Proof.
  unfold drop_lit. rewrite firstn_app, firstn_all, Nat.sub_diag. cbn [firstn]. rewrite app_nil_r, eqb_refl.
  now rewrite skipn_app, skipn_all, Nat.sub_diag.
Qed.
Lemma drop_lit_inv l s r : drop_lit l s = Some r -> s = l ++ r.
Proof.
  unfold drop_lit. destruct (eqb_spec (firstn (length l) s) l) as [E|]; [|discriminate]. intros H. injection H as <-.
  rewrite <- E at 1. symmetry. apply firstn_skipn.
Qed.

(** ** Flags *)
Lemma lower_letter_iff c : lower_letter c = true <-> 97 <= char_code c <= 122.
Proof. unfold lower_letter. rewrite andb_true_iff, !Z.leb_le. reflexivity. Qed.
Lemma flags_lower f : Forall (fun c => 97 <= char_code c <= 122) f <-> Forall (fun c => lower_letter c = true) f.
Proof. rewrite !Forall_forall. split; intros H c I; apply lower_letter_iff; auto. Qed.
Definition free (p : option ascii) : Prop := p <> Some "\"%char.
Lemma take_flags_free p s : free p -> take_flags p s = take_flags None s.
Proof.
  unfold free, take_flags. intros H. destruct p as [c|]; [|reflexivity]. destruct c as [[] [] [] [] [] [] [] []]; try reflexivity; congruence.
Qed.
Lemma take_flags_back s : take_flags (Some "\"%char) s = None. Proof. reflexivity. Qed.
Lemma take_flags_take p o f r : free p -> opens o -> flags f -> take_flags p (o ++ tx "(?" ++ f ++ tx ")" ++ r) = Some (f, r).
Proof.
  intros P O [N F]. rewrite take_flags_free by exact P. unfold take_flags.
  assert (G : forall x, (let '(w, r0) := run lower_letter (f ++ tx ")" ++ r) in
              match w, drop_lit (tx ")") r0 with _ :: _, Some r1 => Some (w, r1) | _, _ => x end) = Some (f, r)).
  { intros x. rewrite run_app; [|now apply flags_lower|reflexivity]. rewrite drop_lit_app. destruct f; [congruence|reflexivity]. }
  destruct O as [-> | ->].
  - rewrite drop_lit_app. replace (drop_lit (tx "?:") (tx "(?" ++ f ++ tx ")" ++ r)) with (@None text) by reflexivity.
    rewrite drop_lit_app. apply G.
  - change (tx "(?:" ++ tx "(?" ++ f ++ tx ")" ++ r) with (tx "(" ++ tx "?:" ++ tx "(?" ++ f ++ tx ")" ++ r).
    rewrite !drop_lit_app. apply G.
Qed.
Lemma take_flags_inv p s f r : take_flags p s = Some (f, r) -> free p /\ flags f /\ exists o, opens o /\ s = o ++ tx "(?" ++ f ++ tx ")" ++ r.
Proof.
  intros H. assert (P : free p) by (intros ->; rewrite take_flags_back in H; discriminate). split; [exact P|].
  rewrite take_flags_free in H by exact P. unfold take_flags in H.
  destruct (drop_lit (tx "(") s) as [r1|] eqn:E1; [|discriminate]. apply drop_lit_inv in E1.
  set (r2 := match drop_lit (tx "?:") r1 with Some r => r | None => r1 end) in *.
  destruct (drop_lit (tx "(?") r2) as [r3|] eqn:E2; [|discriminate]. apply drop_lit_inv in E2.
  destruct (run_spec lower_letter r3) as (E3 & F & _). destruct (run lower_letter r3) as [w r4]. cbn [fst snd] in E3, F.
  destruct w as [|c w]; [discriminate|]. destruct (drop_lit (tx ")") r4) as [r5|] eqn:E4; [|discriminate]. apply drop_lit_inv in E4.
  injection H as <- <-. split; [split; [discriminate|now apply flags_lower]|].
  rewrite E3, E4 in E2. unfold r2 in E2. destruct (drop_lit (tx "?:") r1) as [r6|] eqn:E5.
  - apply drop_lit_inv in E5. exists (tx "(?:"). split; [now right|]. rewrite E1, E5, E2. reflexivity.
  - exists (tx "("). split; [now left|]. rewrite E1, E2. reflexivity.
Qed.

Lemma flags_fuel : forall f1 f2 p s, (length s <= f1)%nat -> (length s <= f2)%nat -> sub_flags f1 p s = sub_flags f2 p s.
Proof.
  induction f1 as [|f1 IH]; intros f2 p s H1 H2.
  - destruct s; [|cbn in H1; lia]. now destruct f2.
  - destruct s as [|c r]; [now destruct f2|]. destruct f2 as [|f2]; [cbn in H2; lia|]. cbn [sub_flags].
    destruct (take_flags p (c :: r)) as [[w rest]|] eqn:E.
    + apply take_flags_inv in E as (_ & _ & o & _ & E). assert (L : length (c :: r) = length (o ++ tx "(?" ++ w ++ tx ")" ++ rest)) by now rewrite E.
      rewrite !app_length in L. cbn [length tx list_ascii_of_string] in L, H1, H2. rewrite (IH f2); [reflexivity|lia|lia].
    + cbn [length] in H1, H2. f_equal. apply IH; lia.
Qed.
Definition fl (p : option ascii) (s : text) : text := sub_flags (length s) p s.
Lemma fl_take p s w r : take_flags p s = Some (w, r) -> fl p s = tx "(?" ++ w ++ tx ":" ++ fl (Some ")"%char) r.
Proof.
  intros T. pose proof (take_flags_inv _ _ _ _ T) as (_ & _ & o & O & E). unfold fl.
  assert (L : (length r < length s)%nat) by (rewrite E, !app_length; cbn; lia).
  destruct s as [|c s]; [cbn in L; lia|]. cbn [length sub_flags] in *. rewrite T. do 3 f_equal. apply flags_fuel; lia.
Qed.
Lemma fl_char p c r : take_flags p (c :: r) = None -> fl p (c :: r) = c :: fl (Some c) r.
Proof. intros T. unfold fl. cbn [length sub_flags]. now rewrite T. Qed.
Lemma fl_free p s : free p -> fl p s = fl None s.
Proof.
  intros P. unfold fl. destruct s as [|c s]; [reflexivity|]. cbn [length sub_flags]. now rewrite take_flags_free.
Qed.

Lemma opens_form o : opens o -> exists u, o = "("%char :: u.
Proof. intros [-> | ->]; eexists; reflexivity. Qed.
Lemma tail_char (w a l : text) x : Forall (fun c => 97 <= char_code c <= 122) w -> w ++ [")"%char] = a ++ x :: l -> x <> "("%char.
Proof.
  intros F E ->. assert (I : In "("%char (w ++ [")"%char])) by (rewrite E; apply in_elt). apply in_app_iff in I as [I|[I|[]]]; [|discriminate].
  rewrite Forall_forall in F. specialize (F _ I). vm_compute in F. destruct F as [F _]. now apply F.
Qed.
Lemma flags_third f t : flags f -> exists c u, f ++ t = c :: u /\ c <> ":"%char.
Proof.
  intros [N F]. destruct f as [|c f]; [congruence|]. exists c, (f ++ t). split; [reflexivity|]. inversion F as [|? ? H]; subst. intros ->.
  vm_compute in H. destruct H as [H _]. now apply H.
Qed.
(** A group with flags does not begin inside another one. *)
Lemma no_overlap o f b o' w (a l r : text) : opens o -> flags f -> opens o' -> flags w -> a <> [] ->
  o' ++ tx "(?" ++ w ++ tx ")" = a ++ l -> o ++ tx "(?" ++ f ++ tx ")" ++ b = l ++ r -> l = [].
Proof.
  intros O Hf O' Hw Na E E'. destruct l as [|x l]; [reflexivity|]. exfalso.
  destruct (opens_form o O) as [u Eo]. assert (Ex : x = "("%char) by (rewrite Eo in E'; cbn [app] in E'; congruence). subst x.
  destruct a as [|a1 a]; [congruence|]. clear Na.
  assert (Inner : forall y, l = "?"%char :: w ++ y -> False).
  { intros y El. rewrite El in E'. cbn [app] in E'. rewrite <- app_assoc in E'.
    destruct O as [-> | ->]; [discriminate E'|]. change (tx "(?:") with ["("; "?"; ":"]%char in E'. cbn [app] in E'. injection E' as E'.
    destruct (flags_third w (y ++ r) Hw) as (c & v & Ec & Nc). rewrite Ec in E'. congruence. }
  assert (Tail : forall a', w ++ tx ")" = a' ++ "("%char :: l -> False).
  { intros a' E1. eapply tail_char; [apply Hw|exact E1|reflexivity]. }
  change (tx "(?") with ["("; "?"]%char in E.
  destruct O' as [-> | ->].
  - change (tx "(") with ["("%char] in E. cbn [app] in E. injection E as <- E.
    destruct a as [|a2 a]; cbn [app] in E; [injection E as E; now apply (Inner (tx ")"))|]. injection E as <- E.
    destruct a as [|a3 a]; cbn [app] in E; [discriminate E|]. injection E as <- E. now apply (Tail a).
  - change (tx "(?:") with ["("; "?"; ":"]%char in E. cbn [app] in E. injection E as <- E.
    destruct a as [|a2 a]; cbn [app] in E; [discriminate E|]. injection E as <- E.
    destruct a as [|a3 a]; cbn [app] in E; [discriminate E|]. injection E as <- E.
    destruct a as [|a4 a]; cbn [app] in E; [injection E as E; now apply (Inner (tx ")"))|]. injection E as <- E.
    destruct a as [|a5 a]; cbn [app] in E; [discriminate E|]. injection E as <- E. now apply (Tail a).
Qed.
Lemma take_flags_prefix p o f b a : opens o -> flags f -> a <> [] ->
  take_flags p (a ++ o ++ tx "(?" ++ f ++ tx ")" ++ b) =
  match take_flags p a with Some (w, r) => Some (w, r ++ o ++ tx "(?" ++ f ++ tx ")" ++ b) | None => None end.
Proof.
  intros O F N. destruct (take_flags p a) as [[w r]|] eqn:T.
  - apply take_flags_inv in T as (P & Fw & o' & O' & ->). rewrite <- !app_assoc. now apply take_flags_take.
  - destruct (take_flags p (a ++ o ++ tx "(?" ++ f ++ tx ")" ++ b)) as [[w r]|] eqn:T'; [|reflexivity]. exfalso.
    apply take_flags_inv in T' as (P & Fw & o' & O' & E).
    assert (E' : a ++ (o ++ tx "(?" ++ f ++ tx ")" ++ b) = (o' ++ tx "(?" ++ w ++ tx ")") ++ r) by (rewrite E, <- !app_assoc; reflexivity).
    apply app_eq_app in E' as [l [[E1 E2] | [E1 E2]]].
    + rewrite E1, <- !app_assoc in T. rewrite take_flags_take in T by assumption. discriminate.
    + pose proof (no_overlap o f b o' w a l r O F O' Fw N E1 E2) as ->. rewrite app_nil_r in E1. subst a.
      replace (o' ++ tx "(?" ++ w ++ tx ")") with (o' ++ tx "(?" ++ w ++ tx ")" ++ []) in T by (now rewrite app_nil_r).
      rewrite take_flags_take in T by assumption. discriminate.
Qed.
Definition last_char (p : option ascii) (a : text) : option ascii := match a with [] => p | c :: r => Some (last r c) end.
Lemma last_app (a : text) c d r : last (a ++ c :: r) d = last r c.
Proof. induction a as [|x a IH]; cbn [app]; [revert d c; induction r as [|y r IHr]; intros; [reflexivity|]; cbn; destruct r; [reflexivity|apply IHr]|]. destruct (a ++ c :: r) eqn:E; [now destruct a|]. cbn [last]. exact IH. Qed.
Lemma last_char_cons p c a : last_char p (c :: a) = last_char (Some c) a.
Proof. destruct a as [|d a]; [reflexivity|]. cbn [last_char]. f_equal. apply (last_app [] d c a). Qed.
Lemma fl_local o f b : opens o -> flags f -> forall n a p, (length a <= n)%nat -> free (last_char p a) ->
  fl p (a ++ o ++ tx "(?" ++ f ++ tx ")" ++ b) = fl p a ++ tx "(?" ++ f ++ tx ":" ++ fl None b.
Proof.
  intros O F. induction n as [|n IH]; intros a p L P.
  - destruct a; [|cbn in L; lia]. cbn [app]. erewrite fl_take by (apply take_flags_take; assumption). now rewrite (fl_free (Some ")"%char)) by discriminate.
  - destruct a as [|c a]; [apply IH; [cbn; lia|exact P]|].
    assert (N : c :: a <> []) by discriminate. pose proof (take_flags_prefix p o f b (c :: a) O F N) as T.
    destruct (take_flags p (c :: a)) as [[w r]|] eqn:E.
    + rewrite (fl_take _ _ _ _ T), (fl_take _ _ _ _ E). apply take_flags_inv in E as (_ & _ & o' & O' & E).
      rewrite <- !app_assoc. do 3 f_equal. apply IH.
      * apply (f_equal (@length _)) in E. rewrite !app_length in E. cbn [length tx list_ascii_of_string] in E, L. lia.
      * destruct r as [|d r]; [discriminate|]. cbn [last_char] in P |- *.
        assert (E2 : last a c = last r d).
        { destruct (opens_form o' O') as [u Eu]. rewrite Eu in E. cbn [app] in E. injection E as -> E. rewrite E.
          replace (u ++ "("%char :: "?"%char :: w ++ ")"%char :: d :: r) with ((u ++ ["("; "?"]%char ++ w ++ [")"%char]) ++ d :: r) by (rewrite <- !app_assoc; reflexivity).
          apply last_app. }
        now rewrite <- E2.
    + cbn [app] in T |- *. rewrite (fl_char _ _ _ T), (fl_char _ _ _ E). cbn [app]. f_equal. apply IH; [cbn in L; lia|].
      now rewrite last_char_cons in P.
Qed.
Lemma last_spec (r : text) : forall c, exists u, c :: r = u ++ [last r c].
Proof.
  induction r as [|d r IH]; intros c; [exists []; reflexivity|]. destruct (IH d) as [u E]. exists (c :: u). cbn [app]. f_equal.
  pose proof (last_app [] d c r) as Q. cbn [app] in Q. now rewrite Q.
Qed.
Lemma not_escaped_free a : ~ escaped a -> free (last_char None a).
Proof.
  intros H. destruct a as [|c r]; [discriminate|]. cbn [last_char]. intros E. injection E as E. apply H.
  destruct (last_spec r c) as [u Eu]. exists u. now rewrite Eu, E.
Qed.
Lemma local_flags_local a o f b : opens o -> flags f -> ~ escaped a ->
  local_flags (a ++ o ++ tx "(?" ++ f ++ tx ")" ++ b) = local_flags a ++ tx "(?" ++ f ++ tx ":" ++ local_flags b.
Proof.
  intros O F E. apply (fl_local o f b O F (length a)); [lia|now apply not_escaped_free].
Qed.
Lemma fl_else p t : (forall a o f b, opens o -> flags f -> t = a ++ o ++ tx "(?" ++ f ++ tx ")" ++ b -> ~ free (last_char p a)) -> fl p t = t.
Proof.
  revert p. induction t as [|c t IH]; intros p H; [reflexivity|].
  destruct (take_flags p (c :: t)) as [[w r]|] eqn:T.
  - apply take_flags_inv in T as (P & Fw & o & O & E). exfalso. exact (H [] o w r O Fw E P).
  - rewrite (fl_char _ _ _ T). f_equal. apply IH. intros a o f b O F ->. specialize (H (c :: a) o f b O F eq_refl).
    now rewrite last_char_cons in H.
Qed.
Lemma local_flags_else t : (forall a o f b, opens o -> flags f -> t = a ++ o ++ tx "(?" ++ f ++ tx ")" ++ b -> escaped a) -> local_flags t = t.
Proof.
  intros H. apply fl_else. intros a o f b O F E P. destruct (H a o f b O F E) as [u ->]. apply P.
  destruct u as [|c u]; [reflexivity|]. cbn [app last_char]. f_equal. now rewrite last_app.
Qed.
