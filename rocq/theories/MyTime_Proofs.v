(** Proofs about the time abbreviations. *)
From Coq Require Import QArith Qfield.
From Verif Require Import Base Text MyTime_Model MyTime_Spec.
From Coq Require Import ZifyBool ZifyNat.
Local Open Scope Z_scope.

(** ** characters *)
Ltac cc := unfold is_word, is_letter, is_digit, is_space in *.
Lemma digit_not_letter c : is_digit c = true -> is_letter c = false.
Proof. cc. lia. Qed.
Lemma digit_not_space c : is_digit c = true -> is_space c = false.
Proof. cc. lia. Qed.
Lemma digit_char_digit d : 0 <= d < 10 -> is_digit (digit_char d) = true.
Proof. intros R. unfold is_digit. rewrite char_code_digit by lia. destruct (Z.ltb_spec d 10); lia. Qed.

Definition nolet (s : text) : Prop := Forall (fun c => is_letter c = false) s.
Definition digs_only (s : text) : Prop := Forall (fun c => is_digit c = true) s.
Lemma digs_nolet s : digs_only s -> nolet s.
Proof. unfold nolet. apply Forall_impl. exact digit_not_letter. Qed.
Lemma map_digit_char l : Forall (fun d => 0 <= d < 10) l -> digs_only (map digit_char l).
Proof. intros F. apply Forall_map. eapply Forall_impl; [|exact F]. cbn. intros. now apply digit_char_digit. Qed.
Lemma dec_digs n : 0 <= n -> digs_only (dec n).
Proof. intros N. apply map_digit_char. apply digits_range; lia. Qed.
Lemma spaces_nolet k : nolet (spaces k).
Proof. apply Forall_forall. intros x I. apply repeat_spec in I as ->. reflexivity. Qed.
Lemma dec_nonempty n : dec n <> []. Proof. apply show_nonempty. Qed.

(** first and last character *)
Definition begins (P : ascii -> bool) (s : text) : Prop := match s with [] => True | c :: _ => P c = true end.
Lemma last_app_one {A} (a : list A) x d : last (a ++ [x]) d = x.
Proof. induction a as [|y a IH]; [reflexivity|]. destruct a; [reflexivity|exact IH]. Qed.
Lemma last_app_ne {A} (a b : list A) d : b <> [] -> last (a ++ b) d = last b d.
Proof. intros N. destruct (exists_last N) as (b' & x & ->). rewrite app_assoc, !last_app_one. reflexivity. Qed.
Lemma last_indep {A} (a : list A) d e : a <> [] -> last a d = last a e.
Proof. intros N. destruct (exists_last N) as (b' & x & ->). now rewrite !last_app_one. Qed.
Lemma last_digs s d : digs_only s -> s <> [] -> is_digit (last s d) = true.
Proof. intros F N. destruct (exists_last N) as (b & x & ->). rewrite last_app_one. apply Forall_app in F as [_ F]. now inversion F. Qed.

(** ** prep *)
Lemma prep_app a : forall p b, prep p (a ++ b) = prep p a ++ prep (last a p) b.
Proof.
  induction a as [|c a IH]; intros p b; [reflexivity|]. cbn [prep app]. rewrite IH.
  assert (E : last a c = last (c :: a) p) by (destruct a as [|y a']; [reflexivity|]; change (last (c :: y :: a') p) with (last (y :: a') p); apply last_indep; discriminate). rewrite E.
  destruct (is_letter p && is_digit c); reflexivity.
Qed.
Lemma prep_nolet a : forall p, nolet a -> is_letter p = false -> prep p a = a.
Proof.
  induction a as [|c a IH]; intros p F L; [reflexivity|]. inversion F; subst. cbn [prep]. rewrite L. cbn. f_equal. now apply IH.
Qed.
Lemma prep_letters a : forall p, Forall (fun c => is_letter c = true) a -> prep p a = a.
Proof.
  induction a as [|c a IH]; intros p F; [reflexivity|]. inversion F as [|? ? L F']; subst. cbn [prep].
  destruct (is_digit c) eqn:D; [apply digit_not_letter in D; congruence|]. rewrite andb_false_r. f_equal. now apply IH.
Qed.

(** ** sub_unit *)
Definition letters (s : text) : Prop := Forall (fun c => is_letter c = true) s.
Definition names_ok (names : list text) : Prop := Forall (fun w => w <> [] /\ letters w) names.
Lemma lower_nolet c : is_letter c = false -> lower c = c.
Proof. unfold lower. cc. intros L. destruct ((65 <=? char_code c) && (char_code c <=? 90)) eqn:E; [lia|reflexivity]. Qed.
Lemma existsb_text (x : text) (l : list text) : existsb (eqb x) l = true <-> In x l.
Proof.
  rewrite existsb_exists. split; [intros (y & I & E); apply eqb_true in E; now subst|]. intros I. exists x. split; [exact I|apply eqb_refl].
Qed.
Lemma names_nolet names c s : names_ok names -> is_letter c = false -> existsb (eqb (c :: s)) names = false.
Proof.
  intros O L. apply not_true_is_false. intros X. apply existsb_text in X. unfold names_ok in O. rewrite Forall_forall in O. destruct (O _ X) as [_ Y]. inversion Y. congruence.
Qed.
Lemma names_nil names : names_ok names -> existsb (eqb []) names = false.
Proof.
  intros O. apply not_true_is_false. intros X. apply existsb_text in X. unfold names_ok in O. rewrite Forall_forall in O. destruct (O _ X) as [Y _]. congruence.
Qed.
Lemma word_run_nolet names c s : names_ok names -> is_letter c = false -> existsb (eqb (map lower (word_run (c :: s)))) names = false.
Proof.
  intros O L. cbn [word_run]. destruct (is_word c); cbn [map]; [rewrite lower_nolet by exact L; now apply names_nolet|now apply names_nil].
Qed.
Section Sub.
Context (names : list text) (rpl : text) (Hn : names_ok names).
Lemma sub_fuel : forall f f' p s, (length s <= f)%nat -> (length s <= f')%nat -> sub_unit f names rpl p s = sub_unit f' names rpl p s.
Proof.
  induction f as [|f IH]; intros f' p s L L'.
  - destruct s; [|cbn in L; lia]. destruct f'; reflexivity.
  - destruct s as [|c s]; [destruct f'; reflexivity|]. destruct f' as [|f']; [cbn in L'; lia|]. cbn [sub_unit]. cbn [length] in L, L'.
    destruct (is_digit p || is_space p) eqn:P; cbn [andb]; [destruct (existsb (eqb (map lower (word_run (c :: s)))) names) eqn:X|].
    + f_equal. destruct (word_run (c :: s)) as [|w ws] eqn:W.
      * cbn [map] in X. rewrite names_nil in X by exact Hn. discriminate.
      * apply IH; rewrite skipn_length; cbn [length]; lia.
    + f_equal. apply IH; lia.
    + f_equal. apply IH; lia.
Qed.
Definition sub (p : ascii) (s : text) : text := sub_unit (length s) names rpl p s.
Lemma sub_nolet p c s : is_letter c = false -> sub p (c :: s) = c :: sub c s.
Proof.
  intros L. unfold sub. cbn [length sub_unit]. rewrite word_run_nolet by assumption. now rewrite andb_false_r.
Qed.
Lemma sub_nolets a : forall p s, nolet a -> sub p (a ++ s) = a ++ sub (last a p) s.
Proof.
  induction a as [|c a IH]; intros p s F; [reflexivity|]. inversion F; subst. cbn [app]. rewrite sub_nolet by assumption. f_equal. rewrite IH by assumption. f_equal. f_equal.
  destruct a as [|y a']; [reflexivity|]. change (last (c :: y :: a') p) with (last (y :: a') p). apply last_indep. discriminate.
Qed.
Lemma sub_any p q s : begins (fun c => negb (is_letter c)) s -> sub p s = sub q s.
Proof. destruct s as [|c s]; intros B; [reflexivity|]. cbn in B. rewrite !sub_nolet by (now destruct (is_letter c)). reflexivity. Qed.
Lemma letter_not_digit c : is_letter c = true -> is_digit c || is_space c = false.
Proof. cc. lia. Qed.
Lemma sub_letters w : forall p s, letters w -> is_letter p = true -> sub p (w ++ s) = w ++ sub (last w p) s.
Proof.
  induction w as [|c w IH]; intros p s F L; [reflexivity|]. inversion F; subst. unfold sub. cbn [app length sub_unit]. rewrite letter_not_digit by exact L. cbn [andb]. f_equal.
  change (sub c (w ++ s) = w ++ sub (last (c :: w) p) s). rewrite IH by assumption. f_equal. f_equal.
  destruct w as [|y a']; [reflexivity|]. change (last (c :: y :: a') p) with (last (y :: a') p). apply last_indep. discriminate.
Qed.
Lemma letter_word c : is_letter c = true -> is_word c = true.
Proof. cc. intros ->. reflexivity. Qed.
Lemma word_run_word w s : letters w -> begins (fun c => negb (is_word c)) s -> word_run (w ++ s) = w.
Proof.
  induction w as [|c w IH]; intros F B.
  - destruct s as [|c s]; [reflexivity|]. cbn in *. now destruct (is_word c).
  - inversion F; subst. cbn [app word_run]. rewrite letter_word by assumption. f_equal. now apply IH.
Qed.
Lemma nonword_nolet s : begins (fun c => negb (is_word c)) s -> begins (fun c => negb (is_letter c)) s.
Proof. destruct s as [|c s]; [auto|]. cbn. unfold is_word. destruct (is_letter c); auto. Qed.
Definition repl1 (w : text) : text := if existsb (eqb (map lower w)) names then rpl else w.
Lemma sub_word w p s : letters w -> w <> [] -> begins (fun c => negb (is_word c)) s -> is_digit p || is_space p = true ->
  sub p (w ++ s) = repl1 w ++ sub " "%char s.
Proof.
  intros F N B P. destruct w as [|c w]; [contradiction|]. inversion F as [|? ? Lc Fw]; subst. unfold repl1.
  pose proof (word_run_word (c :: w) s F B) as W. unfold sub at 1. cbn [app length sub_unit]. cbn [app] in W. rewrite W, P. cbn [andb].
  destruct (existsb (eqb (map lower (c :: w))) names).
  - f_equal. cbn [length]. change (skipn (S (length w)) (c :: w ++ s)) with (skipn (length w) (w ++ s)). rewrite skipn_app, skipn_all, Nat.sub_diag. cbn [app skipn].
    etransitivity; [|apply (sub_any (last (c :: w) p)); now apply nonword_nolet]. apply sub_fuel; [rewrite app_length; lia|lia].
  - cbn [app]. f_equal. change (sub c (w ++ s) = w ++ sub " "%char s). rewrite sub_letters by assumption. f_equal. apply sub_any. now apply nonword_nolet.
Qed.
Lemma repl1_nolet w : nolet w -> repl1 w = w.
Proof.
  intros F. unfold repl1. assert (E : existsb (eqb (map lower w)) names = false).
  { destruct w as [|c w]; [now apply names_nil|]. inversion F; subst. cbn [map]. rewrite lower_nolet by assumption. now apply names_nolet. }
  now rewrite E.
Qed.

(** *** a whole text *)
Definition item_tx (f : text -> text) (it : item) : text := num_text it ++ spaces (it_gap it) ++ f (it_unit it).
Definition rest_tx (g : joint -> joint) (f : text -> text) (rest : list (joint * item)) : text :=
  concat (map (fun p => joint_text (g (fst p)) ++ item_tx f (snd p)) rest).
Definition norm (j : joint) : joint := match j with Next O => Next 1 | _ => j end.
Lemma num_digs it : item_ok it -> nolet (num_text it) /\ num_text it <> [] /\ (forall p, is_digit (last (num_text it) p) = true) /\
  exists d r, num_text it = d :: r /\ is_digit d = true /\ Forall (fun c => is_space c = false) r.
Proof.
  intros (N & F & _). unfold num_text. pose proof (dec_digs _ N) as D. pose proof (dec_nonempty (it_n it)) as E. destruct (dec (it_n it)) as [|d r]; [contradiction|]. inversion D as [|? ? Dd Dr]; subst.
  assert (SD : forall l, digs_only l -> Forall (fun c => is_space c = false) l) by (intros l; apply Forall_impl; exact digit_not_space).
  destruct (it_frac it) as [|x fs] eqn:Fr.
  - rewrite app_nil_r. split; [now apply digs_nolet|]. split; [discriminate|]. split; [intros p; now apply last_digs|]. exists d, r. auto.
  - pose proof (map_digit_char _ F) as M. split; [|split; [discriminate|split]].
    + apply Forall_app. split; [now apply digs_nolet|]. constructor; [reflexivity|now apply digs_nolet].
    + intros p. rewrite last_app_ne by discriminate. change (is_digit (last (["."%char] ++ map digit_char (x :: fs)) p) = true). rewrite last_app_ne by discriminate. now apply last_digs.
    + exists d, (r ++ "."%char :: map digit_char (x :: fs)). split; [reflexivity|]. split; [exact Dd|]. apply Forall_app. split; [auto|]. constructor; [reflexivity|auto].
Qed.
Definition unit_ok (f : text -> text) (it : item) : Prop := letters (f (it_unit it)) \/ nolet (f (it_unit it)).
Lemma last_space_or k a p : is_digit (last a p) = true -> a <> [] -> is_digit (last (a ++ spaces k) p) || is_space (last (a ++ spaces k) p) = true.
Proof.
  intros D N. destruct k; [cbn [spaces repeat]; rewrite app_nil_r, D; reflexivity|]. rewrite last_app_ne by discriminate.
  assert (E : last (spaces (S k)) p = " "%char). { unfold spaces. replace (S k) with (k + 1)%nat by lia. rewrite repeat_app. apply last_app_one. }
  rewrite E. reflexivity.
Qed.
Lemma sub_item f it p s : item_ok it -> unit_ok f it -> begins (fun c => negb (is_word c)) s ->
  sub p (item_tx f it ++ s) = item_tx (fun w => repl1 (f w)) it ++ sub " "%char s.
Proof.
  intros O U B. destruct (num_digs it O) as (N1 & N2 & N3 & _). unfold item_tx. rewrite !app_assoc. rewrite <- app_assoc. rewrite sub_nolets by (apply Forall_app; split; [exact N1|apply spaces_nolet]).
  rewrite <- !app_assoc. f_equal. f_equal. destruct U as [U|U].
  - destruct (f (it_unit it)) as [|c w] eqn:E.
    + cbn [app]. unfold repl1. cbn [map]. rewrite names_nil by exact Hn. cbn [app]. apply sub_any. now apply nonword_nolet.
    + apply sub_word; [exact U|discriminate|exact B|]. now apply last_space_or.
  - rewrite sub_nolets by exact U. rewrite repl1_nolet by exact U. f_equal. apply sub_any. now apply nonword_nolet.
Qed.
Lemma joint_nolet j : nolet (joint_text j).
Proof. destruct j as [k|a neg b]; cbn [joint_text]; [apply spaces_nolet|]. apply Forall_app. split; [apply spaces_nolet|]. constructor; [now destruct neg|apply spaces_nolet]. Qed.
Lemma rest_begins f rest : begins (fun c => negb (is_word c)) (rest_tx norm f rest).
Proof.
  destruct rest as [|[j it] rest]; [exact I|]. cbn [rest_tx map concat fst snd]. destruct j as [[|k]|[|a] neg b]; try reflexivity. cbn. now destruct neg.
Qed.
Lemma sub_rest f rest p : Forall (fun q => item_ok (snd q) /\ unit_ok f (snd q)) rest ->
  sub p (rest_tx norm f rest) = rest_tx norm (fun w => repl1 (f w)) rest.
Proof.
  revert p. induction rest as [|[j it] rest IH]; intros p F; [reflexivity|]. inversion F as [|? ? [O U] Fr]; subst. cbn [snd] in *.
  change (rest_tx norm f ((j, it) :: rest)) with ((joint_text (norm j) ++ item_tx f it) ++ rest_tx norm f rest).
  change (rest_tx norm ?f ((j, it) :: rest)) with ((joint_text (norm j) ++ item_tx f it) ++ rest_tx norm f rest).
  rewrite <- !app_assoc. rewrite sub_nolets by apply joint_nolet. f_equal. rewrite sub_item by (auto using rest_begins). f_equal. now apply IH.
Qed.
Lemma sub_text minus f first rest p : item_ok first -> unit_ok f first -> Forall (fun q => item_ok (snd q) /\ unit_ok f (snd q)) rest ->
  sub p ((if minus : bool then tx "-" else []) ++ item_tx f first ++ rest_tx norm f rest) =
  (if minus then tx "-" else []) ++ item_tx (fun w => repl1 (f w)) first ++ rest_tx norm (fun w => repl1 (f w)) rest.
Proof.
  intros O U F. rewrite sub_nolets by (destruct minus; repeat constructor). f_equal. rewrite sub_item by (auto using rest_begins). f_equal. now apply sub_rest.
Qed.
End Sub.

(** *** all units *)
Definition final (u : text) : text := fold_left (fun w p => repl1 (fst p) (snd p) w) parts u.
Definition parts_ok (ps : list (list text * text)) : Prop := Forall (fun p => names_ok (fst p) /\ nolet (snd p)) ps.
Lemma parts_are_ok : parts_ok parts.
Proof. unfold parts, parts_ok, names_ok, letters, nolet. repeat (apply Forall_cons || apply Forall_nil || split || discriminate || reflexivity). Qed.
Lemma sub_all minus first rest : forall ps f, parts_ok ps -> item_ok first -> unit_ok f first -> Forall (fun q => item_ok (snd q) /\ unit_ok f (snd q)) rest ->
  fold_left (fun s p => sub_unit (length s) (fst p) (snd p) "000"%char s) ps ((if minus : bool then tx "-" else []) ++ item_tx f first ++ rest_tx norm f rest) =
  let f' := fun u => fold_left (fun w p => repl1 (fst p) (snd p) w) ps (f u) in
  (if minus then tx "-" else []) ++ item_tx f' first ++ rest_tx norm f' rest.
Proof.
  induction ps as [|[names rpl] ps IH]; intros f P O U F; [reflexivity|]. inversion P as [|? ? [P1 P2] Ps]; subst. cbn [fold_left fst snd] in *.
  change (sub_unit ?l names rpl "000"%char ?s) with (sub names rpl "000"%char s). rewrite sub_text by assumption.
  assert (UO : forall it, unit_ok f it -> unit_ok (fun w => repl1 names rpl (f w)) it).
  { intros it [X|X]; unfold unit_ok, repl1; destruct (existsb (eqb (map lower (f (it_unit it)))) names); auto. }
  rewrite IH; auto. eapply Forall_impl; [|exact F]. cbn. intros q [? ?]. auto.
Qed.

(** ** the units *)
Definition unit_texts : list (Z * text) :=
  [(1, tx "*1"); (60, tx "*60"); (3600, tx "*3600"); (86400, tx "*86400"); (604800, tx "*604800"); (2629800, tx "*2629800.0"); (31557600, tx "*31557600.0")].
Lemma fold_repl_nolet ps w : parts_ok ps -> nolet w -> fold_left (fun w p => repl1 (fst p) (snd p) w) ps w = w.
Proof. induction ps as [|[n r] ps IH]; intros P N; [reflexivity|]. inversion P as [|? ? [P1 P2] Ps]; subst. cbn [fold_left fst snd] in *. rewrite repl1_nolet by assumption. now apply IH. Qed.
Lemma fold_repl_find ps w : parts_ok ps ->
  fold_left (fun w p => repl1 (fst p) (snd p) w) ps w = match List.find (fun p => existsb (eqb (map lower w)) (fst p)) ps with Some p => snd p | None => w end.
Proof.
  induction ps as [|[n r] ps IH]; intros P; [reflexivity|]. inversion P as [|? ? [P1 P2] Ps]; subst. cbn [fold_left fst snd List.find] in *. unfold repl1 at 2.
  destruct (existsb (eqb (map lower w)) n); [now apply fold_repl_nolet|]. now apply IH.
Qed.
Lemma find_unit u z : unit_seconds u = Some z -> u <> [] -> exists w, In w (concat (map snd unit_table)) /\ map lower u = tx w /\ unit_seconds (tx w) = Some z /\ In (z, match List.find (fun p => existsb (eqb (map lower (tx w))) (fst p)) parts with Some p => snd p | None => [] end) unit_texts.
Proof.
  intros E N. destruct u as [|c u]; [contradiction|]. unfold unit_seconds in E. set (l := map lower (c :: u)) in *. 
  assert (X : exists w, In w (concat (map snd unit_table)) /\ l = tx w).
  { destruct (List.find _ unit_table) as [[y ws]|] eqn:F; [|discriminate]. apply find_some in F as [I F]. cbn [snd] in F. apply existsb_exists in F as (w & Iw & Ew). apply eqb_true in Ew.
    exists w. split; [|exact Ew]. apply in_concat. exists ws. split; [|exact Iw]. apply (in_map snd) in I. exact I. }
  destruct X as (w & Iw & El). exists w. split; [exact Iw|]. split; [exact El|]. rewrite El in E. clear l El.
  unfold unit_table in Iw. cbn [map snd concat app] in Iw.
  repeat (destruct Iw as [<-|Iw]; [vm_compute in E; injection E as <-; split; [vm_compute; reflexivity|]; vm_compute; tauto|]). destruct Iw.
Qed.
Lemma lower_idem c : lower (lower c) = lower c.
Proof.
  destruct c as [[] [] [] [] [] [] [] []]; vm_compute; reflexivity.
Qed.
Lemma final_unit u z : unit_seconds u = Some z -> u <> [] -> In (z, final u) unit_texts.
Proof.
  intros E N. destruct (find_unit u z E N) as (w & Iw & El & _ & I). unfold final. rewrite fold_repl_find by apply parts_are_ok.
  assert (Lw : map lower (tx w) = map lower u). { rewrite <- El, map_map. apply map_ext. exact lower_idem. }
  rewrite Lw in I. unfold text in *. match goal with |- context [List.find ?f ?l] => destruct (List.find f l) eqn:F end; [exact I|]. exfalso. clear -I. unfold unit_texts in I. cbn [In] in I. intuition discriminate.
Qed.

(** ** prep of the text *)
Lemma unit_letters u : unit_seconds u <> None -> letters u.
Proof.
  intros N. destruct u as [|c u]; [constructor|]. destruct (unit_seconds (c :: u)) as [z|] eqn:E; [|contradiction]. clear N.
  destruct (find_unit _ _ E) as (w & Iw & El & _); [discriminate|].
  assert (H : letters (tx w)).
  { clear -Iw. unfold unit_table in Iw. cbn [map snd concat app] in Iw. repeat (destruct Iw as [<-|Iw]; [repeat constructor|]). destruct Iw. }
  rewrite <- El in H. unfold letters in *. rewrite Forall_map in H. eapply Forall_impl; [|exact H]. cbn. intros a. destruct (is_letter a) eqn:L; [reflexivity|]. rewrite lower_nolet by exact L. congruence.
Qed.
Lemma last_letters w p : letters w -> w <> [] -> is_letter (last w p) = true.
Proof. intros F N. destruct (exists_last N) as (b & x & ->). rewrite last_app_one. apply Forall_app in F as [_ F]. now inversion F. Qed.
Lemma last_nolet w p : nolet w -> is_letter p = false -> is_letter (last w p) = false.
Proof.
  intros F L. destruct w as [|c w]; [exact L|]. assert (N : c :: w <> []) by discriminate. destruct (exists_last N) as (b & x & E). rewrite E in *. rewrite last_app_one. apply Forall_app in F as [_ F]. now inversion F.
Qed.
Lemma prep_item it p s : item_ok it -> is_letter p = false ->
  prep p (item_text it ++ s) = item_text it ++ prep (last (item_text it) p) s.
Proof.
  intros O L. destruct (num_digs it O) as (N1 & N2 & N3 & _). rewrite prep_app. f_equal. unfold item_text. rewrite app_assoc, prep_app.
  assert (Z1 : nolet (num_text it ++ spaces (it_gap it))) by (apply Forall_app; split; [exact N1|apply spaces_nolet]).
  rewrite prep_nolet by assumption. f_equal. apply prep_letters. apply unit_letters. apply O.
Qed.
Lemma prep_rest : forall rest first p, joints_ok first rest -> Forall (fun q => item_ok (snd q)) rest -> (it_unit first <> [] -> is_letter p = true) ->
  prep p (rest_tx (fun j => j) (fun u => u) rest) = rest_tx norm (fun u => u) rest.
Proof.
  induction rest as [|[j it] rest IH]; intros first p J F P; [reflexivity|]. destruct J as [J1 J2]. inversion F as [|? ? O Fr]; subst. cbn [snd] in O.
  change (rest_tx ?g (fun u => u) ((j, it) :: rest)) with ((joint_text (g j) ++ item_text it) ++ rest_tx g (fun u => u) rest).
  destruct (num_digs it O) as (N1 & N2 & N3 & d & r & E & D & _).
  assert (Last : forall p, it_unit it <> [] -> is_letter (last (item_text it) p) = true).
  { intros q U. unfold item_text. rewrite !app_assoc. rewrite last_app_ne by exact U. apply last_letters; [apply unit_letters; apply O|exact U]. }
  assert (Step : forall q, is_letter q = false -> prep q (item_text it ++ rest_tx (fun j => j) (fun u => u) rest) = item_text it ++ rest_tx norm (fun u => u) rest).
  { intros q Lq. rewrite prep_item by assumption. f_equal. apply (IH it); auto. }
  rewrite <- !app_assoc. destruct j as [[|k]|a neg b].
  - cbn [norm joint_text]. change (spaces 0) with (@nil ascii). cbn [app].
    assert (U : it_unit first <> []) by (intros X; destruct (J1 X) as (? & ? & ? & Y); discriminate). specialize (P U).
    specialize (Step " "%char eq_refl). unfold item_text in *. rewrite E in *. cbn [app prep] in *. rewrite P, D. cbn [andb]. change (is_letter " "%char) with false in Step. cbn [andb] in Step.
    change (spaces 1) with [" "%char]. cbn [app]. f_equal. exact Step.
  - cbn [norm joint_text]. unfold spaces. cbn [repeat app prep]. change (is_digit " "%char) with false. rewrite andb_false_r. f_equal. rewrite prep_app, prep_nolet by (reflexivity || apply spaces_nolet). f_equal.
    apply Step. apply last_nolet; [apply spaces_nolet|reflexivity].
  - cbn [norm joint_text]. rewrite <- !app_assoc. assert (Z : forall n q s, is_digit (hd "x"%char (spaces n ++ s)) = false -> s <> [] -> prep q (spaces n ++ s) = spaces n ++ prep (last (spaces n) q) s).
    { intros n q s H X. rewrite prep_app. f_equal. destruct n; [reflexivity|]. unfold spaces. cbn [repeat prep]. change (is_digit " "%char) with false. rewrite andb_false_r. f_equal. apply prep_nolet; [apply spaces_nolet|reflexivity]. }
    rewrite Z; [|destruct a; [cbn; now destruct neg|reflexivity]|discriminate]. f_equal. cbn [app prep].
    assert (S1 : is_digit (if neg then "-"%char else "+"%char) = false) by now destruct neg. rewrite S1, andb_false_r. f_equal.
    assert (S2 : is_letter (if neg then "-"%char else "+"%char) = false) by now destruct neg.
    rewrite prep_app, prep_nolet by (apply spaces_nolet || exact S2). f_equal. apply Step. apply last_nolet; [apply spaces_nolet|exact S2].
Qed.
Lemma prep_text minus first rest : item_ok first -> joints_ok first rest -> Forall (fun q => item_ok (snd q)) rest ->
  prep "000"%char (time_text minus first rest) = (if minus : bool then tx "-" else []) ++ item_tx (fun u => u) first ++ rest_tx norm (fun u => u) rest.
Proof.
  intros O J F. unfold time_text. rewrite prep_app. apply f_equal2; [now destruct minus|].
  match goal with |- prep ?x _ = _ => set (p := x) end. assert (L : is_letter p = false) by (unfold p; now destruct minus).
  rewrite prep_item by assumption. f_equal. apply (prep_rest rest first); auto. intros U. unfold item_text. rewrite !app_assoc. rewrite last_app_ne by exact U. apply last_letters; [apply unit_letters; apply O|exact U].
Qed.

(** ** fini *)
Lemma drop_spaces_len s : (length (drop_spaces s) <= length s)%nat.
Proof. induction s as [|c s IH]; cbn; [lia|]. destruct (is_space c); cbn; lia. Qed.
Lemma fini_fuel : forall f f' s, (length s <= f)%nat -> (length s <= f')%nat -> fini f s = fini f' s.
Proof.
  induction f as [|f IH]; intros f' s L L'.
  - destruct s; [|cbn in L; lia]. destruct f'; reflexivity.
  - destruct s as [|c r]; [destruct f'; reflexivity|]. destruct f' as [|f']; [cbn in L'; lia|]. cbn [fini]. cbn [length] in L, L'.
    assert (E : c :: fini f r = c :: fini f' r) by (f_equal; apply IH; lia).
    destruct (is_digit c); [|exact E]. destruct r as [|x r0]; [exact E|]. pose proof (drop_spaces_len (x :: r0)) as D. destruct (drop_spaces (x :: r0)) as [|d r']; [exact E|].
    destruct (is_space x && is_digit d); [|exact E]. do 3 f_equal. cbn [length] in *. apply IH; lia.
Qed.
Definition fin (s : text) : text := fini (length s) s.
Definition stop (s : text) : Prop := begins (fun c => negb (is_space c)) s \/ begins (fun c => negb (is_digit c)) (drop_spaces s).
Lemma fin_cons c s : is_digit c = false \/ stop s -> fin (c :: s) = c :: fin s.
Proof.
  intros H. unfold fin. cbn [length fini]. destruct (is_digit c); [|reflexivity]. destruct H as [H|H]; [discriminate|]. destruct s as [|x s]; [reflexivity|].
  destruct (drop_spaces (x :: s)) as [|d r] eqn:E; [reflexivity|]. destruct H as [H|H].
  - cbn in H. destruct (is_space x); [discriminate|reflexivity].
  - rewrite E in H. cbn in H. destruct (is_digit d); [discriminate|]. now rewrite andb_false_r.
Qed.
Lemma fin_nospace a : forall s, Forall (fun c => is_space c = false) a -> stop s -> fin (a ++ s) = a ++ fin s.
Proof.
  induction a as [|c a IH]; intros s F S; [reflexivity|]. inversion F as [|? ? Fc Fa]; subst. cbn [app]. rewrite fin_cons; [f_equal; now apply IH|].
  right. destruct a as [|y a]; [exact S|]. left. inversion Fa; subst. cbn. now destruct (is_space y).
Qed.
Lemma fin_spaces k s : fin (spaces k ++ s) = spaces k ++ fin s.
Proof. induction k as [|k IH]; [reflexivity|]. unfold spaces in *. cbn [repeat app]. rewrite fin_cons by (left; reflexivity). now rewrite IH. Qed.
Lemma drop_spaces_spaces k s : drop_spaces (spaces k ++ s) = drop_spaces s.
Proof. induction k as [|k IH]; [reflexivity|]. exact IH. Qed.
Lemma fin_join c k d s : is_digit c = true -> is_digit d = true -> fin (c :: spaces (S k) ++ d :: s) = c :: "+"%char :: d :: fin s.
Proof.
  intros C D. unfold fin. assert (E : drop_spaces (spaces (S k) ++ d :: s) = d :: s) by (rewrite drop_spaces_spaces; cbn; now rewrite digit_not_space).
  assert (X : exists r, spaces (S k) ++ d :: s = " "%char :: r /\ (length s <= length r)%nat) by (exists (spaces k ++ d :: s); split; [reflexivity|rewrite app_length; cbn; lia]).
  destruct X as (r & Er & Lr). rewrite Er in *. set (n := length (" "%char :: r)). assert (Ln : (length s <= n)%nat) by (unfold n; cbn; lia).
  change (length (c :: " "%char :: r)) with (S n). clearbody n. cbn [fini]. rewrite C, E, D. change (is_space " "%char) with true. cbn [andb]. do 3 f_equal. apply fini_fuel; lia.
Qed.
Lemma stop_spaces k s : stop s -> begins (fun c => negb (is_digit c)) (drop_spaces s) -> stop (spaces k ++ s).
Proof. intros S B. right. now rewrite drop_spaces_spaces. Qed.

(** the text between rewriting and evaluation *)
Definition plus (j : joint) : joint := match j with Next _ => Op 0 false 0 | _ => j end.
Lemma unit_text_shape z t : In (z, t) unit_texts -> exists a d, t = "*"%char :: a ++ [d] /\ Forall (fun c => is_space c = false) a /\ is_digit d = true.
Proof.
  intros I. apply (in_map snd) in I. cbn [snd] in I.
  assert (H : existsb (eqb t) (map snd unit_texts) = true) by now apply existsb_text. clear I.
  exists (removelast (tl t)), (last t "x"%char). unfold unit_texts in H. cbn [map snd existsb] in H.
  repeat match goal with H : _ || _ = true |- _ => apply orb_true_iff in H as [H|H] end; try discriminate;
    apply eqb_true in H; subst t; (split; [vm_compute; reflexivity|]; split; [vm_compute; repeat constructor|vm_compute; reflexivity]).
Qed.
Lemma final_nil : final [] = []. Proof. reflexivity. Qed.
Lemma final_shape it : item_ok it -> it_unit it <> [] -> exists a d, final (it_unit it) = "*"%char :: a ++ [d] /\ Forall (fun c => is_space c = false) a /\ is_digit d = true.
Proof.
  intros (_ & _ & U) N. destruct (unit_seconds (it_unit it)) as [z|] eqn:E; [|contradiction]. apply final_unit in E; [|exact N]. exact (unit_text_shape _ _ E).
Qed.
Lemma fin_rest : forall rest it a, item_ok it -> joints_ok it rest -> Forall (fun q => item_ok (snd q)) rest -> Forall (fun c => is_space c = false) a ->
  fin (a ++ spaces (it_gap it) ++ final (it_unit it) ++ rest_tx norm final rest) =
  a ++ spaces (it_gap it) ++ final (it_unit it) ++ rest_tx plus final rest.
Proof.
  induction rest as [|[j it2] rest IH]; intros it a O J F A.
  - cbn [rest_tx map concat]. rewrite !app_nil_r. destruct (it_unit it) as [|c u] eqn:U.
    + rewrite final_nil, !app_nil_r. rewrite fin_nospace; [|exact A|right; rewrite <- (app_nil_r (spaces _)), drop_spaces_spaces; exact I]. f_equal. rewrite <- (app_nil_r (spaces _)), fin_spaces. reflexivity.
    + rewrite <- U in *. destruct (final_shape it O) as (x & d & E & X & D); [congruence|]. rewrite E. rewrite fin_nospace; [|exact A|right; rewrite drop_spaces_spaces; reflexivity]. f_equal.
      rewrite fin_spaces. f_equal. rewrite <- (app_nil_r (_ :: x ++ [d])). rewrite fin_nospace; [reflexivity| |left; exact I]. constructor; [reflexivity|]. apply Forall_app. split; [exact X|]. constructor; [now apply digit_not_space|constructor].
  - destruct J as [J1 J2]. inversion F as [|? ? O2 F2]; subst. cbn [snd] in O2.
    change (rest_tx ?g final ((j, it2) :: rest)) with ((joint_text (g j) ++ item_tx final it2) ++ rest_tx g final rest).
    destruct (num_digs it2 O2) as (_ & _ & _ & d2 & r2 & E2 & D2 & S2). rewrite <- !app_assoc. unfold item_tx at 1 2. rewrite <- !app_assoc.
    assert (Step : forall x, Forall (fun c => is_space c = false) x -> fin (x ++ spaces (it_gap it2) ++ final (it_unit it2) ++ rest_tx norm final rest) = x ++ spaces (it_gap it2) ++ final (it_unit it2) ++ rest_tx plus final rest) by (intros x Hx; now apply IH).
    assert (OpCase : forall p neg q, fin (a ++ spaces (it_gap it) ++ final (it_unit it) ++ joint_text (Op p neg q) ++ num_text it2 ++ spaces (it_gap it2) ++ final (it_unit it2) ++ rest_tx norm final rest) =
       a ++ spaces (it_gap it) ++ final (it_unit it) ++ joint_text (Op p neg q) ++ num_text it2 ++ spaces (it_gap it2) ++ final (it_unit it2) ++ rest_tx plus final rest).
    { intros p neg q. cbn [joint_text]. assert (Sg : is_digit (if neg then "-"%char else "+"%char) = false /\ is_space (if neg then "-"%char else "+"%char) = false) by now destruct neg. destruct Sg as [Sg Sg'].
      assert (Tail : forall y, stop (spaces p ++ (if neg then "-"%char else "+"%char) :: y) /\ begins (fun c => negb (is_digit c)) (drop_spaces (spaces p ++ (if neg then "-"%char else "+"%char) :: y))).
      { intros y. assert (B : begins (fun c => negb (is_digit c)) (drop_spaces (spaces p ++ (if neg then "-"%char else "+"%char) :: y))) by (rewrite drop_spaces_spaces; cbn [drop_spaces]; rewrite Sg'; cbn; now rewrite Sg). split; [right; exact B|exact B]. }
      rewrite <- !app_assoc. cbn [app].
      assert (Post : fin (spaces p ++ (if neg then "-"%char else "+"%char) :: spaces q ++ num_text it2 ++ spaces (it_gap it2) ++ final (it_unit it2) ++ rest_tx norm final rest) =
                     spaces p ++ (if neg then "-"%char else "+"%char) :: spaces q ++ num_text it2 ++ spaces (it_gap it2) ++ final (it_unit it2) ++ rest_tx plus final rest).
      { rewrite fin_spaces. f_equal. rewrite fin_cons by (left; exact Sg). f_equal. rewrite fin_spaces. f_equal. apply Step. rewrite E2. constructor; [now apply digit_not_space|exact S2]. }
      destruct (it_unit it) as [|c u] eqn:U.
      - rewrite final_nil. cbn [app]. rewrite fin_nospace; [|exact A|right; rewrite drop_spaces_spaces; apply Tail]. f_equal. rewrite fin_spaces. f_equal. exact Post.
      - rewrite <- U in *. destruct (final_shape it O) as (x & d & E & X & D); [congruence|]. rewrite E. rewrite fin_nospace; [|exact A|right; rewrite drop_spaces_spaces; reflexivity]. f_equal.
        rewrite fin_spaces. f_equal. rewrite fin_nospace; [f_equal; exact Post| |apply Tail]. constructor; [reflexivity|]. apply Forall_app. split; [exact X|]. constructor; [now apply digit_not_space|constructor]. }
    destruct j as [k|p neg q]; [|apply OpCase].
    assert (U : it_unit it <> []) by (intros Hu; destruct (J1 Hu) as (? & ? & ? & Y); discriminate).
    destruct (final_shape it O U) as (x & d & E & X & D). rewrite E.
    assert (K : exists k', joint_text (norm (Next k)) = spaces (S k')) by (destruct k as [|k]; [exists 0%nat|exists k]; reflexivity). destruct K as [k' ->].
    rewrite fin_nospace; [|exact A|right; rewrite drop_spaces_spaces; reflexivity]. f_equal. rewrite fin_spaces. f_equal.
    cbn [app]. rewrite fin_cons by (left; reflexivity). f_equal. rewrite <- !app_assoc. rewrite fin_nospace; [|exact X|left; cbn; now rewrite digit_not_space]. f_equal.
    rewrite E2. cbn [app]. rewrite fin_join by assumption. cbn [plus joint_text]. change (spaces 0) with (@nil ascii). cbn [app]. do 3 f_equal. now apply Step.
Qed.
Lemma fin_text minus first rest : item_ok first -> joints_ok first rest -> Forall (fun q => item_ok (snd q)) rest ->
  fin ((if minus : bool then tx "-" else []) ++ item_tx final first ++ rest_tx norm final rest) =
  (if minus then tx "-" else []) ++ item_tx final first ++ rest_tx plus final rest.
Proof.
  intros O J F. destruct (num_digs first O) as (_ & _ & _ & d & r & E & D & S).
  assert (X : fin (item_tx final first ++ rest_tx norm final rest) = item_tx final first ++ rest_tx plus final rest).
  { unfold item_tx. rewrite <- !app_assoc. apply fin_rest; auto. rewrite E. constructor; [now apply digit_not_space|exact S]. }
  destruct minus; [|exact X]. change (tx "-") with ["-"%char]. cbn [app]. rewrite fin_cons by (left; reflexivity). now rewrite X.
Qed.

(** ** tokens *)
Lemma take_digits_len s : (length (snd (take_digits s)) <= length s)%nat.
Proof. induction s as [|c s IH]; cbn; [lia|]. destruct (is_digit c); [|cbn; lia]. destruct (take_digits s). cbn in *. lia. Qed.
Lemma number_len s q r : number s = Some (q, r) -> (length r < length s)%nat.
Proof.
  unfold number. intros E. destruct (take_digits s) as [ds r0] eqn:T. destruct ds as [|d ds]; [discriminate|].
  assert (L : (length r0 < length s)%nat).
  { destruct s as [|c s]; [discriminate|]. cbn [take_digits] in T. destruct (is_digit c); [|discriminate]. pose proof (take_digits_len s) as L. destruct (take_digits s). injection T as _ _ <-. cbn in *. lia. }
  destruct (starts_with _ r0).
  - pose proof (take_digits_len (tl r0)) as L2. destruct (take_digits (tl r0)) as [fs r']. injection E as _ <-. cbn [snd] in L2. destruct r0; cbn in *; lia.
  - destruct (_ && _); [discriminate|]. injection E as _ <-. exact L.
Qed.
Lemma tokens_fuel : forall f f' s, (length s <= f)%nat -> (length s <= f')%nat -> tokens f s = tokens f' s.
Proof.
  induction f as [|f IH]; intros f' s L L'.
  - destruct s; [|cbn in L; lia]. destruct f'; reflexivity.
  - destruct s as [|c r]; [destruct f'; reflexivity|]. destruct f' as [|f']; [cbn in L'; lia|]. cbn [tokens]. cbn [length] in L, L'.
    assert (E : tokens f r = tokens f' r) by (apply IH; lia). rewrite !E.
    destruct (number (c :: r)) as [[q r']|] eqn:N; [|reflexivity]. apply number_len in N. cbn [length] in N. rewrite (IH f' r') by lia. reflexivity.
Qed.
(** evaluation of a text from a state *)
Definition run (st : option est) (s : text) : option est :=
  match tokens (length s) s with Some ts => fold_left estep ts st | None => None end.
Lemma run_nil st : run st [] = st. Proof. reflexivity. Qed.
Lemma run_cons (t : tok) st s r (x : option (list tok)) : tokens (length s) s = option_map (cons t) (tokens (length r) r) -> run st s = run (estep st t) r.
Proof. intros E. unfold run. rewrite E. destruct (tokens (length r) r); reflexivity. Qed.
Lemma run_space st s : run st (" "%char :: s) = run st s.
Proof. reflexivity. Qed.
Lemma run_spaces st k s : run st (spaces k ++ s) = run st s.
Proof. induction k as [|k IH]; [reflexivity|]. exact IH. Qed.
Lemma run_plus st s : run st ("+"%char :: s) = run (estep st Plus) s.
Proof. apply run_cons; [exact None|reflexivity]. Qed.
Lemma run_minus st s : run st ("-"%char :: s) = run (estep st Minus) s.
Proof. apply run_cons; [exact None|reflexivity]. Qed.
Lemma run_times st c s : is_digit c = true -> run st ("*"%char :: c :: s) = run (estep st Times) (c :: s).
Proof.
  intros D. apply run_cons; [exact None|]. cbn [length]. set (n := S (length s)). cbn [tokens]. change (eqb "*"%char " "%char || eqb "*"%char "009"%char) with false.
  change (eqb "*"%char "+"%char) with false. change (eqb "*"%char "-"%char) with false. change (eqb "*"%char "*"%char) with true. cbv iota. cbn [starts_with].
  destruct (eqb_spec c "*"%char) as [->|]; [discriminate|reflexivity].
Qed.
Lemma run_num st c s q r : is_digit c = true -> number (c :: s) = Some (q, r) -> run st (c :: s) = run (estep st (Num q)) r.
Proof.
  intros D N. apply run_cons; [exact None|]. cbn [length tokens].
  assert (X : forall x, is_digit x = false -> eqb c x = false) by (intros x Hx; destruct (eqb_spec c x) as [->|]; [congruence|reflexivity]).
  rewrite !X by reflexivity. cbn [orb]. rewrite N. f_equal. apply number_len in N. cbn [length] in N. apply tokens_fuel; lia.
Qed.

(** ** numbers *)
Definition numq (it : item) : Q := value 10 (digits 10 (it_n it) ++ it_frac it) # Z.to_pos (10 ^ Z.of_nat (length (it_frac it))).
Lemma take_digits_chars l s : Forall (fun d => 0 <= d < 10) l -> begins (fun c => negb (is_digit c)) s -> take_digits (map digit_char l ++ s) = (l, s).
Proof.
  induction l as [|d l IH]; intros F B.
  - destruct s as [|c s]; [reflexivity|]. cbn in *. now destruct (is_digit c).
  - inversion F; subst. cbn [map app take_digits]. rewrite digit_char_digit by assumption. rewrite IH by assumption. rewrite char_code_digit by lia. destruct (Z.ltb_spec d 10); [|lia]. do 2 f_equal. lia.
Qed.
Lemma begins_weaken (P R : ascii -> bool) s : (forall c, P c = true -> R c = true) -> begins P s -> begins R s.
Proof. destruct s; cbn; auto. Qed.
Lemma number_text it s : item_ok it -> begins (fun c => negb (is_digit c || eqb c "."%char)) s -> number (num_text it ++ s) = Some (numq it, s).
Proof.
  intros (N & F & _) B. unfold number, num_text, numq. pose proof (digits_range 10 (it_n it) ltac:(lia) N) as R.
  assert (B1 : begins (fun c => negb (is_digit c)) s) by (eapply begins_weaken; [|exact B]; cbn; intros c; destruct (is_digit c); auto).
  assert (B2 : starts_with "."%char s = false) by (destruct s as [|c s]; [reflexivity|]; cbn in *; destruct (eqb_spec c "."%char); [subst; discriminate|reflexivity]).
  rewrite <- app_assoc. unfold dec, show. destruct (it_frac it) as [|x fs].
  - cbn [app]. rewrite take_digits_chars by assumption. rewrite app_nil_r. pose proof (digits_nonempty 10 (it_n it)) as E. destruct (digits 10 (it_n it)) as [|d ds] eqn:Dg; [contradiction|].
    rewrite B2. assert (X : (d =? 0) && negb (value 10 (d :: ds) =? 0) = false).
    { destruct (Z.eq_dec (it_n it) 0) as [Z0|Z0].
      - rewrite Z0 in Dg. rewrite digits_zero in Dg by lia. injection Dg as <- <-. reflexivity.
      - destruct (digits_lead 10 (it_n it)) as (d' & r' & E' & Nz); [lia|lia|]. rewrite Dg in E'. injection E' as <- <-. destruct (Z.eqb_spec d 0); [contradiction|reflexivity]. }
    rewrite X. reflexivity.
  - rewrite take_digits_chars; [|exact R|cbn; reflexivity]. pose proof (digits_nonempty 10 (it_n it)) as E. destruct (digits 10 (it_n it)) as [|d ds] eqn:Dg; [contradiction|].
    cbn [app starts_with tl]. change (eqb "."%char "."%char) with true. cbv iota. rewrite take_digits_chars by assumption. reflexivity.
Qed.
Lemma run_number st it s : item_ok it -> begins (fun c => negb (is_digit c || eqb c "."%char)) s -> run st (num_text it ++ s) = run (estep st (Num (numq it))) s.
Proof.
  intros O B. pose proof (number_text it s O B) as N. destruct (num_digs it O) as (_ & _ & _ & d & r & E & D & _). rewrite E in *. cbn [app] in *. now apply run_num.
Qed.
Lemma unit_number z t : In (z, t) unit_texts -> exists it0, t = "*"%char :: num_text it0 /\ item_ok it0 /\ (numq it0 == inject_Z z)%Q.
Proof.
  intros I. unfold unit_texts in I. cbn [In] in I.
  assert (Go : forall n fs, 0 <= n -> Forall (fun d => 0 <= d < 10) fs -> item_ok (mkItem n fs 0 [])) by (intros n fs Hn Hf; split; [exact Hn|split; [exact Hf|discriminate]]).
  destruct I as [I|[I|[I|[I|[I|[I|[I|[]]]]]]]]; injection I as <- <-.
  1: exists (mkItem 1 [] 0 []). 2: exists (mkItem 60 [] 0 []). 3: exists (mkItem 3600 [] 0 []). 4: exists (mkItem 86400 [] 0 []). 5: exists (mkItem 604800 [] 0 []).
  6: exists (mkItem 2629800 [0] 0 []). 7: exists (mkItem 31557600 [0] 0 []).
  all: split; [vm_compute; reflexivity|]; split; [apply Go; [lia|repeat constructor; lia]|vm_compute; reflexivity].
Qed.

(** ** the value *)
Lemma item_value_eq it z : unit_seconds (it_unit it) = Some z -> item_value it = (numq it * inject_Z z)%Q.
Proof. intros E. unfold item_value. now rewrite E. Qed.
Lemma run_item it sum mul neg s : item_ok it -> begins (fun c => negb (is_digit c || eqb c "."%char)) s -> exists m,
  run (Some (Want sum mul false neg)) (item_tx final it ++ s) = run (Some (Have sum m)) s /\ (m == mul * (if neg : bool then - item_value it else item_value it))%Q.
Proof.
  intros O B. pose proof O as (_ & _ & U). destruct (unit_seconds (it_unit it)) as [z|] eqn:Ez; [|contradiction]. rewrite (item_value_eq it z Ez). unfold item_tx. rewrite <- !app_assoc.
  assert (B' : begins (fun c => negb (is_digit c || eqb c "."%char)) (spaces (it_gap it) ++ final (it_unit it) ++ s)).
  { destruct (it_gap it); [|reflexivity]. cbn [spaces repeat app]. destruct (it_unit it) as [|c u] eqn:Eu; [exact B|]. rewrite <- Eu in *. destruct (final_shape it O) as (a & d & -> & _); [congruence|]. reflexivity. }
  rewrite run_number by assumption. rewrite run_spaces. destruct (it_unit it) as [|c u] eqn:Eu.
  - rewrite final_nil. cbn [app]. injection Ez as <-. eexists. split; [reflexivity|]. destruct neg; cbn [estep]; ring.
  - rewrite <- Eu in *. pose proof (final_unit _ _ Ez ltac:(congruence)) as I. destruct (unit_number _ _ I) as (it0 & E0 & O0 & V0). rewrite E0. cbn [app].
    assert (X : forall st, run st ("*"%char :: num_text it0 ++ s) = run (estep st Times) (num_text it0 ++ s)).
    { intros st. destruct (num_digs it0 O0) as (_ & _ & _ & d & r & E & D & _). rewrite E. cbn [app]. now apply run_times. }
    rewrite X. rewrite run_number by assumption. cbn [estep]. eexists. split; [reflexivity|]. rewrite V0. destruct neg; ring.
Qed.
Lemma sum_value_proper rest : forall a b, (a == b)%Q -> (sum_value a rest == sum_value b rest)%Q.
Proof.
  induction rest as [|[j it] rest IH]; intros a b E; [exact E|]. cbn [sum_value]. apply IH. destruct j as [k|p [] q]; rewrite E; reflexivity.
Qed.
Lemma rest_begins2 rest : begins (fun c => negb (is_digit c || eqb c "."%char)) (rest_tx plus final rest).
Proof. destruct rest as [|[j it] rest]; [exact I|]. cbn [rest_tx map concat fst snd]. destruct j as [k|[|a] neg b]; try reflexivity. cbn. now destruct neg. Qed.
Lemma run_rest : forall rest sum mul, Forall (fun q => item_ok (snd q)) rest -> exists sum' mul',
  run (Some (Have sum mul)) (rest_tx plus final rest) = Some (Have sum' mul') /\ (sum' + mul' == sum_value (sum + mul) rest)%Q.
Proof.
  induction rest as [|[j it] rest IH]; intros sum mul F; [exists sum, mul; split; [reflexivity|reflexivity]|]. inversion F as [|? ? O Fr]; subst. cbn [snd] in O.
  change (rest_tx plus final ((j, it) :: rest)) with ((joint_text (plus j) ++ item_tx final it) ++ rest_tx plus final rest). rewrite <- app_assoc.
  assert (J : exists a neg b, plus j = Op a neg b /\ (match j with Op _ true _ => sum + mul - item_value it | _ => sum + mul + item_value it end)%Q = if neg then (sum + mul - item_value it)%Q else (sum + mul + item_value it)%Q).
  { destruct j as [k|a neg b]; [exists 0%nat, false, 0%nat; auto|exists a, neg, b; split; [reflexivity|now destruct neg]]. }
  destruct J as (a & neg & b & -> & V). cbn [sum_value]. rewrite V. cbn [joint_text]. rewrite <- !app_assoc. rewrite run_spaces. cbn [app].
  assert (Sg : forall s, run (Some (Have sum mul)) ((if neg then "-"%char else "+"%char) :: s) = run (Some (Want (sum + mul) (if neg then -1 else 1)%Q false false)) s).
  { intros s. destruct neg; [apply run_minus|apply run_plus]. }
  rewrite Sg, run_spaces. destruct (run_item it (sum + mul)%Q (if neg then -1 else 1)%Q false (rest_tx plus final rest) O (rest_begins2 rest)) as (m & R & Em). rewrite R.
  destruct (IH (sum + mul)%Q m Fr) as (s' & m' & R' & V'). exists s', m'. split; [exact R'|]. rewrite V'. apply sum_value_proper. rewrite Em. destruct neg; ring.
Qed.
Lemma eval_run s : eval s = match run (Some (Want 0 1 false false)) s with Some (Have a b) => Some (a + b)%Q | _ => None end.
Proof. unfold eval, run. destruct (tokens (length s) s); reflexivity. Qed.
Lemma str2seconds_text minus first rest : item_ok first -> joints_ok first rest -> Forall (fun q => item_ok (snd q)) rest ->
  exists q, str2seconds (time_text minus first rest) = Some q /\ (q == time_value minus first rest)%Q.
Proof.
  intros O J F. unfold str2seconds. rewrite prep_text by assumption. cbv zeta.
  assert (UO : forall it, item_ok it -> unit_ok (fun u => u) it) by (intros it (_ & _ & U); left; now apply unit_letters).
  match goal with |- context [fold_left ?f parts ?x] => assert (E : fold_left f parts x = (if minus then tx "-" else []) ++ item_tx final first ++ rest_tx norm final rest) end.
  { rewrite (sub_all minus first rest parts (fun u => u)); [reflexivity|apply parts_are_ok|exact O|now apply UO|]. eapply Forall_impl; [|exact F]. cbn. auto. }
  rewrite !E. change (fini (length ?x) ?x) with (fin x). rewrite fin_text by assumption. rewrite eval_run.
  assert (M : forall s, run (Some (Want 0 1 false false)) ((if minus then tx "-" else []) ++ s) = run (Some (Want 0 1 false minus)) s) by (intros s; destruct minus; [apply run_minus|reflexivity]).
  rewrite M. destruct (run_item first 0 1 minus (rest_tx plus final rest) O (rest_begins2 rest)) as (m & R & Em). rewrite R.
  destruct (run_rest rest 0 m F) as (s' & m' & R' & V'). rewrite R'. eexists. split; [reflexivity|]. rewrite V'. unfold time_value. apply sum_value_proper. rewrite Em. destruct minus; ring.
Qed.

(** ** seconds2str *)
Definition gtext (l : list (Z * text)) : text := concat (map (fun p => str (fst p) ++ snd p ++ [" "%char]) l).
Definition opt_group (b : bool) (n : Z) (u : text) : list (Z * text) := if b then [(n, u)] else [].
Definition groups (s : Z) : list (Z * text) :=
  if 31536000 <=? s then let d := round_div s 86400 in
    (d / 365, tx "y") :: opt_group (7 <=? d mod 365) (d mod 365 / 7) (tx "w") ++ opt_group (negb (d mod 365 mod 7 =? 0)) (d mod 365 mod 7) (tx "d")
  else if 604800 <=? s then let h := round_div s 3600 in
    (h / 168, tx "w") :: opt_group (24 <=? h mod 168) (h mod 168 / 24) (tx "d") ++ opt_group (negb (h mod 168 mod 24 =? 0)) (h mod 168 mod 24) (tx "h")
  else if 86400 <=? s then let m := round_div s 60 in
    (m / 1440, tx "d") :: opt_group (60 <=? m mod 1440) (m mod 1440 / 60) (tx "h") ++ opt_group (negb (m mod 1440 mod 60 =? 0)) (m mod 1440 mod 60) (tx "m")
  else if 3595 <=? s then let t := round_div s 10 in
    (t / 360, tx "h") :: opt_group (6 <=? t mod 360) (t mod 360 / 6) (tx "m")
  else opt_group (60 <=? s) (s / 60) (tx "m") ++ opt_group (if 60 <=? s then negb (s mod 60 =? 0) else true) (if 60 <=? s then s mod 60 else s) (tx "s").
Lemma gtext_cons n u l : gtext ((n, u) :: l) = str n ++ u ++ " "%char :: gtext l.
Proof. unfold gtext. cbn [map concat fst snd]. now rewrite <- !app_assoc. Qed.
Lemma gtext_nil : gtext [] = []. Proof. reflexivity. Qed.
Lemma gtext_app a b : gtext (a ++ b) = gtext a ++ gtext b.
Proof. unfold gtext. now rewrite map_app, concat_app. Qed.
Lemma small_mod a b : 0 <= a < b -> a mod b = a.
Proof. apply Z.mod_small. Qed.
Lemma s2s_groups s : s <> 0 -> seconds2str s = removelast (gtext (groups s)).
Proof.
  intros N. unfold seconds2str, groups. cbv zeta. f_equal.
  assert (Two : forall r v a u1 u2, 0 < a -> 0 <= v ->
    (let '(r, s) := if a <=? v then (r ++ str (v / a) ++ u1 ++ [" "%char], v mod a) else (r, v) in if s =? 0 then r else r ++ str s ++ u2 ++ [" "%char]) =
    r ++ gtext (opt_group (a <=? v) (v / a) u1 ++ opt_group (negb (v mod a =? 0)) (v mod a) u2)).
  { intros r v a u1 u2 Ha Hv. rewrite gtext_app. destruct (Z.leb_spec a v); cbn [opt_group].
    - rewrite gtext_cons, gtext_nil. destruct (v mod a =? 0); cbn [negb opt_group]; rewrite ?gtext_cons, ?gtext_nil, ?app_nil_r, <- ?app_assoc; cbn [app]; reflexivity.
    - rewrite small_mod by lia. destruct (v =? 0); cbn [negb opt_group]; rewrite ?gtext_cons, ?gtext_nil, ?app_nil_r; reflexivity. }
  destruct (31536000 <=? s); [|destruct (604800 <=? s); [|destruct (86400 <=? s); [|destruct (3595 <=? s)]]].
  - rewrite gtext_cons. etransitivity; [apply (Two (str (round_div s 86400 / 365) ++ tx "y ") (round_div s 86400 mod 365) 7 (tx "w") (tx "d")); [lia|apply Z.mod_pos_bound; lia]|]. rewrite <- app_assoc. reflexivity.
  - rewrite gtext_cons. etransitivity; [apply (Two (str (round_div s 3600 / 168) ++ tx "w ") (round_div s 3600 mod 168) 24 (tx "d") (tx "h")); [lia|apply Z.mod_pos_bound; lia]|]. rewrite <- app_assoc. reflexivity.
  - rewrite gtext_cons. etransitivity; [apply (Two (str (round_div s 60 / 1440) ++ tx "d ") (round_div s 60 mod 1440) 60 (tx "h") (tx "m")); [lia|apply Z.mod_pos_bound; lia]|]. rewrite <- app_assoc. reflexivity.
  - rewrite gtext_cons. destruct (6 <=? round_div s 10 mod 360); cbn [opt_group]; rewrite ?gtext_cons, ?gtext_nil, <- ?app_assoc; reflexivity.
  - rewrite gtext_app. destruct (Z.leb_spec 60 s); cbn [opt_group].
    + rewrite gtext_cons, gtext_nil. destruct (Z.eqb_spec (s mod 60) 0); cbn [negb opt_group].
      * destruct (Z.eqb_spec s 0); [contradiction|]. rewrite gtext_nil, app_nil_r. reflexivity.
      * rewrite gtext_cons, gtext_nil, <- ?app_assoc. reflexivity.
    + rewrite gtext_nil. destruct (Z.eqb_spec s 0); [contradiction|]. cbn [negb app]. rewrite gtext_cons, gtext_nil. reflexivity.
Qed.

(** groups as quantities *)
Definition group_item (p : Z * text) : item := mkItem (fst p) [] 0 (snd p).
Lemma removelast_app_ne {A} (a b : list A) : b <> [] -> removelast (a ++ b) = a ++ removelast b.
Proof. intros N. now rewrite removelast_app. Qed.
Lemma str_nonneg n : 0 <= n -> str n = dec n.
Proof. intros N. unfold str. destruct (Z.ltb_spec n 0); [lia|reflexivity]. Qed.
Lemma groups_text : forall l p, Forall (fun p => 0 <= fst p) (p :: l) ->
  removelast (gtext (p :: l)) = time_text false (group_item p) (map (fun p => (Next 1, group_item p)) l).
Proof.
  induction l as [|p2 l IH]; intros [n u] F; inversion F as [|? ? F1 F2]; subst; cbn [fst] in F1; rewrite gtext_cons, str_nonneg by exact F1; rewrite app_assoc.
  - rewrite gtext_nil, removelast_app_ne by discriminate. cbn [removelast]. unfold time_text, item_text, num_text, group_item, spaces. cbn. rewrite !app_nil_r. reflexivity.
  - rewrite removelast_app_ne by discriminate. assert (G : gtext (p2 :: l) <> []).
    { destruct p2 as [n2 u2]. rewrite gtext_cons. destruct (str n2); [|discriminate]. destruct u2; discriminate. }
    assert (R : removelast (" "%char :: gtext (p2 :: l)) = " "%char :: removelast (gtext (p2 :: l))) by (destruct (gtext (p2 :: l)); [contradiction|reflexivity]).
    rewrite R, IH by assumption. unfold time_text. cbn [map concat fst snd]. unfold item_text at 3. unfold num_text, group_item at 3 4 5 6. cbn [it_n it_frac it_gap it_unit fst snd spaces repeat joint_text app]. rewrite app_nil_r, <- !app_assoc. reflexivity.
Qed.
Definition group_secs (p : Z * text) : Z := fst p * match unit_seconds (snd p) with Some z => z | None => 0 end.
Lemma group_item_value p : 0 <= fst p -> (item_value (group_item p) == inject_Z (group_secs p))%Q.
Proof.
  intros N. unfold item_value, group_item, group_secs. cbn [it_n it_frac it_unit]. rewrite app_nil_r, digits_value by lia. cbn [length]. change (Z.to_pos (10 ^ Z.of_nat 0)) with 1%positive.
  change (fst p # 1) with (inject_Z (fst p)). rewrite <- inject_Z_mult. reflexivity.
Qed.
Definition secs_of (l : list (Z * text)) : Z := fold_right (fun p a => group_secs p + a) 0 l.
Lemma sum_groups l : forall a z, Forall (fun p => 0 <= fst p) l -> (a == inject_Z z)%Q -> (sum_value a (map (fun p => (Next 1, group_item p)) l) == inject_Z (z + secs_of l))%Q.
Proof.
  induction l as [|p l IH]; intros a z F E; cbn [map sum_value secs_of fold_right].
  - rewrite Z.add_0_r. exact E.
  - inversion F; subst. rewrite (IH _ (z + group_secs p)); [|assumption|rewrite E, group_item_value by assumption; now rewrite <- inject_Z_plus].
    fold (secs_of l). replace (z + (group_secs p + secs_of l)) with (z + group_secs p + secs_of l) by lia. reflexivity.
Qed.
Definition groups_ok (l : list (Z * text)) : Prop := Forall (fun p => 0 <= fst p /\ unit_seconds (snd p) <> None /\ snd p <> []) l.
Lemma read_groups p l : groups_ok (p :: l) ->
  exists q, str2seconds (removelast (gtext (p :: l))) = Some q /\ (q == inject_Z (secs_of (p :: l)))%Q.
Proof.
  intros G. assert (F : Forall (fun p => 0 <= fst p) (p :: l)) by (eapply Forall_impl; [|exact G]; cbn; tauto). rewrite groups_text by exact F.
  assert (IO : forall p, 0 <= fst p /\ unit_seconds (snd p) <> None /\ snd p <> [] -> item_ok (group_item p)) by (intros p' (A & B & _); split; [exact A|split; [constructor|exact B]]).
  inversion G as [|? ? G1 G2]; subst. inversion F as [|? ? F1 F2]; subst.
  destruct (str2seconds_text false (group_item p) (map (fun p => (Next 1, group_item p)) l)) as (q & E & V).
  - now apply IO.
  - clear - G1 G2. revert p G1. induction l as [|p2 l IH]; intros p G1; cbn [map joints_ok]; [exact I|]. inversion G2 as [|? ? G3 G4]; subst. split; [|now apply IH].
    cbn. intros X. destruct G1 as (_ & _ & X'). contradiction.
  - apply Forall_map. eapply Forall_impl; [|exact G2]. cbn. exact IO.
  - exists q. split; [exact E|]. rewrite V. unfold time_value. cbn [secs_of fold_right]. fold (secs_of l). apply sum_groups; [exact F2|now apply group_item_value].
Qed.
Lemma secs_app a b : secs_of (a ++ b) = secs_of a + secs_of b.
Proof. unfold secs_of. induction a as [|p a IH]; cbn; [reflexivity|]. rewrite IH. lia. Qed.
Lemma secs_opt b n u : secs_of (opt_group b n u) = if b then group_secs (n, u) else 0.
Proof. destruct b; cbn; lia. Qed.
Lemma ok_opt b n u : (b = true -> 0 <= n) -> unit_seconds u <> None -> u <> [] -> groups_ok (opt_group b n u).
Proof. intros. destruct b; cbn [opt_group]; repeat constructor; cbn; auto. Qed.
Lemma round_div_near n d : 0 < d -> 2 * Z.abs (n - d * round_div n d) <= d.
Proof.
  intros D. unfold round_div. cbv zeta. pose proof (Z.div_mod n d ltac:(lia)) as E. pose proof (Z.mod_pos_bound n d D).
  destruct (Z.ltb_spec (2 * (n mod d)) d); [lia|]. destruct (Z.ltb_spec d (2 * (n mod d))); [lia|]. destruct (Z.even (n / d)); lia.
Qed.
Lemma round_div_nonneg n d : 0 < d -> 0 <= n -> 0 <= round_div n d.
Proof.
  intros D N. assert (0 <= n / d) by (apply Z.div_pos; lia). unfold round_div. cbv zeta. destruct (_ <? _); [lia|]. destruct (_ <? _); [lia|]. destruct (Z.even _); lia.
Qed.
Lemma groups_are_ok s : 0 <= s -> groups_ok (groups s).
Proof.
  intros N. unfold groups. cbv zeta.
  assert (P : forall a b, 0 < b -> 0 <= a mod b) by (intros a b Hb; apply Z.mod_pos_bound; lia).
  assert (D : forall a b, 0 <= a -> 0 < b -> 0 <= a / b) by (intros a b Ha Hb; apply Z.div_pos; lia).
  destruct (31536000 <=? s); [|destruct (604800 <=? s); [|destruct (86400 <=? s); [|destruct (3595 <=? s)]]];
    unfold groups_ok; try (apply Forall_cons; [cbn [fst snd]; split; [apply D; [apply round_div_nonneg; lia|lia]|split; discriminate]|]); try (apply Forall_app; split);
    try (apply ok_opt; [intros _; auto with zarith|discriminate|discriminate]).
  - destruct (60 <=? s); [apply P; lia|exact N].
Qed.
Lemma groups_secs s : 0 <= s ->
  secs_of (groups s) =
    if 31536000 <=? s then 86400 * round_div s 86400 + 21600 * (round_div s 86400 / 365)
    else if 604800 <=? s then 3600 * round_div s 3600
    else if 86400 <=? s then 60 * round_div s 60
    else if 3595 <=? s then 60 * (round_div s 10 / 6)
    else s.
Proof.
  intros N. unfold groups. cbv zeta.
  assert (U : forall n u z, unit_seconds u = Some z -> group_secs (n, u) = n * z) by (intros n u z E; unfold group_secs; cbn [fst snd]; now rewrite E).
  assert (Two : forall v a u1 u2 z1 z2, 0 < a -> 0 <= v -> unit_seconds u1 = Some z1 -> unit_seconds u2 = Some z2 -> z1 = a * z2 ->
    secs_of (opt_group (a <=? v) (v / a) u1 ++ opt_group (negb (v mod a =? 0)) (v mod a) u2) = v * z2).
  { intros v a u1 u2 z1 z2 Ha Hv E1 E2 Ez. rewrite secs_app, !secs_opt, (U _ _ _ E1), (U _ _ _ E2). pose proof (Z.div_mod v a ltac:(lia)) as Q. 
    assert (X : (if a <=? v then v / a * z1 else 0) = v / a * z1). { destruct (Z.leb_spec a v); [reflexivity|]. rewrite Z.div_small by lia. reflexivity. }
    assert (Y : (if negb (v mod a =? 0) then v mod a * z2 else 0) = v mod a * z2). { destruct (Z.eqb_spec (v mod a) 0) as [->|]; reflexivity. }
    rewrite X, Y, Ez. rewrite Q at 3. ring. }
  destruct (31536000 <=? s) eqn:C1; [|destruct (604800 <=? s) eqn:C2; [|destruct (86400 <=? s) eqn:C3; [|destruct (Z.leb_spec 3595 s)]]].
  - cbn [secs_of fold_right]. change (fold_right _ 0 ?l) with (secs_of l). rewrite (Two _ 7 (tx "w") (tx "d") 604800 86400); try reflexivity; [|apply Z.mod_pos_bound; lia].
    rewrite (U _ (tx "y") 31557600) by reflexivity. pose proof (Z.div_mod (round_div s 86400) 365). lia.
  - cbn [secs_of fold_right]. change (fold_right _ 0 ?l) with (secs_of l). rewrite (Two _ 24 (tx "d") (tx "h") 86400 3600); try reflexivity; [|apply Z.mod_pos_bound; lia].
    rewrite (U _ (tx "w") 604800) by reflexivity. pose proof (Z.div_mod (round_div s 3600) 168). lia.
  - cbn [secs_of fold_right]. change (fold_right _ 0 ?l) with (secs_of l). rewrite (Two _ 60 (tx "h") (tx "m") 3600 60); try reflexivity; [|apply Z.mod_pos_bound; lia].
    rewrite (U _ (tx "d") 86400) by reflexivity. pose proof (Z.div_mod (round_div s 60) 1440). lia.
  - cbn [secs_of fold_right]. change (fold_right _ 0 ?l) with (secs_of l). rewrite secs_opt. rewrite (U _ (tx "h") 3600), (U _ (tx "m") 60) by reflexivity.
    set (t := round_div s 10). assert (X : (if 6 <=? t mod 360 then t mod 360 / 6 * 60 else 0) = t mod 360 / 6 * 60).
    { destruct (Z.leb_spec 6 (t mod 360)); [reflexivity|]. pose proof (Z.mod_pos_bound t 360). rewrite Z.div_small by lia. reflexivity. }
    rewrite X. Z.to_euclidean_division_equations; lia.
  - rewrite secs_app, !secs_opt. rewrite (U _ (tx "m") 60), (U _ (tx "s") 1) by reflexivity. destruct (Z.leb_spec 60 s); [|lia].
    pose proof (Z.div_mod s 60). destruct (Z.eqb_spec (s mod 60) 0); cbn [negb]; lia.
Qed.
Lemma groups_nonempty s : groups s <> [].
Proof.
  unfold groups. cbv zeta. destruct (31536000 <=? s); [discriminate|]. destruct (604800 <=? s); [discriminate|]. destruct (86400 <=? s); [discriminate|]. destruct (3595 <=? s); [discriminate|].
  destruct (60 <=? s); discriminate.
Qed.
Lemma round_trip s : 0 <= s -> exists q, str2seconds (seconds2str s) = Some q /\ (q == inject_Z (secs_of (groups s)))%Q.
Proof.
  intros N. destruct (Z.eq_dec s 0) as [->|Z0]; [exists (0 + 1 * 0)%Q; split; vm_compute; reflexivity|].
  rewrite s2s_groups by exact Z0. pose proof (groups_are_ok s N) as G. pose proof (groups_nonempty s) as E. destruct (groups s) as [|p l]; [contradiction|]. now apply read_groups.
Qed.
Lemma round_trip_neg s : s < 0 -> exists q, str2seconds (seconds2str s) = Some q /\ (q == inject_Z s)%Q.
Proof.
  intros N. assert (E : seconds2str s = time_text true (mkItem (- s) [] 0 (tx "s")) []).
  { rewrite s2s_groups by lia. unfold groups. cbv zeta. destruct (Z.leb_spec 31536000 s); [lia|]. destruct (Z.leb_spec 604800 s); [lia|]. destruct (Z.leb_spec 86400 s); [lia|]. destruct (Z.leb_spec 3595 s); [lia|].
    destruct (Z.leb_spec 60 s); [lia|]. cbn [opt_group app]. rewrite gtext_cons, gtext_nil. unfold str. destruct (Z.ltb_spec s 0); [|lia]. rewrite app_assoc, removelast_app_ne by discriminate.
    unfold time_text, item_text, num_text. cbn [it_n it_frac it_gap it_unit spaces repeat app map concat removelast]. rewrite !app_nil_r. reflexivity. }
  rewrite E. destruct (str2seconds_text true (mkItem (- s) [] 0 (tx "s")) []) as (q & Eq & V).
  - split; [cbn; lia|]. split; [constructor|discriminate].
  - exact I.
  - constructor.
  - exists q. split; [exact Eq|]. rewrite V. unfold time_value. cbn [sum_value]. pose proof (group_item_value (- s, tx "s")) as G. unfold group_item in G. cbn [fst snd] in G. rewrite G by lia.
    unfold group_secs. cbn [fst snd]. change (unit_seconds (tx "s")) with (Some 1). rewrite <- inject_Z_opp. replace (- (- s * 1)) with s by lia. reflexivity.
Qed.
