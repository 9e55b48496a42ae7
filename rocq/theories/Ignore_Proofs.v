(** Proofs about the ignore list. *)
From Coq Require Import Permutation.
From Verif Require Import Base Text Regex IPAddr_Model IPAddr_Spec IPAddr_Proofs IPAddr_Proofs2 IPAddr_Props Utils_Model Ignore_Model Ignore_Spec.
Require Import ZifyBool ZifyNat.

(** ** file names *)
Lemma after_spec p s r : after p s = Some r <-> s = p ++ r.
Proof.
  revert s. induction p as [|a p IH]; intros s; cbn.
  - split; intros H; [now injection H as ->|now subst].
  - destruct s as [|b s]; [split; discriminate|]. destruct (eqb_spec a b) as [->|N].
    + rewrite IH. split; intros H; [now subst|now injection H].
    + split; [discriminate|]. intros H. injection H as -> _. congruence.
Qed.
Lemma strip_spec s n : strip_slash (strip_slash s) = n <-> exists k, (k <= 2)%nat /\ s = repeat slash k ++ n /\ ((k < 2)%nat -> hd_error n <> Some slash).
Proof.
  unfold strip_slash. split.
  - intros <-. destruct s as [|a s]; [exists 0%nat; cbn; repeat split; try lia; discriminate|].
    destruct (eqb_spec a "/"%char) as [->|N].
    + destruct s as [|b s]; [exists 1%nat; cbn; repeat split; try lia; discriminate|].
      destruct (eqb_spec b "/"%char) as [->|N]; [exists 2%nat; cbn; repeat split; lia|].
      exists 1%nat. cbn. repeat split; try lia. unfold slash. intros _ X. injection X as X. contradiction.
    + exists 0%nat. destruct (eqb_spec a "/"%char); [contradiction|]. cbn. repeat split; try lia. unfold slash. intros _ X. injection X as X. contradiction.
  - intros (k & K & -> & H). destruct k as [|[|[|k]]]; [| | |lia]; cbn [repeat app].
    + destruct n as [|a n]; [reflexivity|]. destruct (eqb_spec a "/"%char) as [->|N]; [exfalso; apply H; [lia|reflexivity]|].
      destruct (eqb_spec a "/"%char); [contradiction|reflexivity].
    + change (eqb slash "/"%char) with true. cbn iota. destruct n as [|a n]; [reflexivity|].
      destruct (eqb_spec a "/"%char) as [->|N]; [exfalso; apply H; [lia|reflexivity]|reflexivity].
    + reflexivity.
Qed.
Lemma file_name_spec s n : file_name s = Some n <-> names_file s n.
Proof.
  unfold file_name, names_file. destruct (after (tx "file:") s) as [r|] eqn:E.
  - apply after_spec in E as ->. split.
    + intros H. injection H as H. apply strip_spec in H as (k & K & -> & H). exists k. auto.
    + intros (k & K & H & Hn). apply app_inv_head in H as ->. f_equal. apply strip_spec. eauto.
  - split; [discriminate|]. intros (k & _ & -> & _).
    assert (X : after (tx "file:") (tx "file:" ++ repeat slash k ++ n) = Some (repeat slash k ++ n)) by now apply after_spec. congruence.
Qed.
Lemma no_file_spec s : file_name s = None <-> forall n, ~ names_file s n.
Proof.
  split.
  - intros E n H. apply file_name_spec in H. congruence.
  - intros H. destruct (file_name s) as [n|] eqn:E; [|reflexivity]. apply file_name_spec in E. now apply H in E.
Qed.

(** a text that names a file is no address *)
Fixpoint only (p : ascii -> Prop) (r : re) : Prop :=
  match r with
  | RNone | REps => True
  | RChr f => forall c, f c = true -> p c
  | RCat a b | RAlt a b => only p a /\ only p b
  | RStar a => only p a
  end.
Lemma only_lang p r s : lang r s -> only p r -> Forall p s.
Proof.
  intros L. induction L; cbn; intros O; auto; try tauto.
  - apply Forall_app. tauto.
  - apply Forall_app. split; auto.
Qed.
Lemma file_prefix s n : file_name s = Some n -> exists t, s = tx "file:" ++ t.
Proof. intros E. apply file_name_spec in E as (k & _ & -> & _). eauto. Qed.

Lemma file_no_re t : matches ip_re (tx "file:" ++ t) = false.
Proof.
  destruct (matches ip_re (tx "file:" ++ t)) eqn:M; [|reflexivity]. exfalso. apply matches_lang in M.
  apply only_lang with (p := fun c => c <> "i"%char) in M.
  - cbn in M. inversion M as [|? ? _ M']; subst. inversion M' as [|? ? X _]; subst. now apply X.
  - cbn. repeat split; intros c H ->; vm_compute in H; discriminate.
Qed.
Lemma split_first c a b : ~ In c a -> exists r, split c (a ++ c :: b) = a :: r /\ r <> [].
Proof. intros H. rewrite split_app by exact H. eexists. split; [reflexivity|apply split_nonempty]. Qed.
Lemma file_no_ip4 t : pton4 (tx "file:" ++ t) = None.
Proof.
  unfold pton4. destruct (split "."%char (tx "file:" ++ t)) as [|a [|b [|c [|d [|]]]]] eqn:E; try reflexivity.
  assert (X : exists u, a = "f"%char :: u).
  { cbn in E. match type of E with (match split _ ?x with _ => _ end) = _ => idtac | _ => idtac end.
    cbn [split app] in E. destruct (split "."%char (tx "ile:" ++ t)) as [|y ys] eqn:Y; [now apply split_nonempty in Y|].
    cbn in Y. rewrite Y in E. injection E as <- _. eauto. }
  destruct X as (u & ->). replace (read_octet ("f"%char :: u)) with (@None Z); [reflexivity|]. unfold read_octet. reflexivity.
Qed.
Lemma file_no_ip6 t : pton6 (tx "file:" ++ t) = None.
Proof.
  unfold pton6. change (tx "file:" ++ t) with ("f"%char :: tx "ile:" ++ t). cbn iota. replace (eqb "f"%char ":"%char) with false by reflexivity. cbn iota.
  change ("f"%char :: tx "ile:" ++ t) with (tx "file" ++ ":"%char :: t).
  rewrite split_app by (cbn; intuition discriminate). destruct (split ":"%char t) as [|y ys] eqn:Y; [now apply split_nonempty in Y|]. reflexivity.
Qed.
Lemma file_ip s n : file_name s = Some n -> ip_new s CUnspec = Some (mkIp FUnspec 0 0 s).
Proof.
  intros E. apply file_prefix in E as (t & ->). unfold ip_new.
  assert (W : wrap_ipstr (tx "file:" ++ t) = Some (tx "file:" ++ t, CUnspec)).
  { unfold wrap_ipstr. change (tx "file:" ++ t) with ("f"%char :: "i"%char :: "l"%char :: tx "e:" ++ t).
    cbn iota. replace (eqb "f"%char "["%char) with false by reflexivity. cbn [andb].
    destruct (split "/"%char ("f"%char :: "i"%char :: "l"%char :: tx "e:" ++ t)) as [|a [|b [|]]] eqn:Sp; try reflexivity.
    replace (matches ip_re a) with false; [reflexivity|]. symmetry.
    assert (X : exists u, a = tx "file:" ++ u).
    { change ("f"%char :: "i"%char :: "l"%char :: tx "e:" ++ t) with (tx "file:" ++ t) in Sp. pose proof (join_split "/"%char (tx "file:" ++ t)) as J. rewrite Sp in J. cbn [join] in J.
      destruct a as [|a1 [|a2 [|a3 [|a4 [|a5 a]]]]]; cbn in J; try (injection J; intros; subst; discriminate); try discriminate.
      injection J as -> -> -> -> -> J. exists a. reflexivity. }
    destruct X as (u & ->). apply file_no_re. }
  rewrite W. unfold ip_init. rewrite file_no_ip4, file_no_ip6. reflexivity.
Qed.
(** a name whose text is that of a file comes from a file in brackets *)
Lemma name_of_file t z n : ip_new t CUnspec = Some z -> file_name t = None -> file_name (i_raw z) = Some n -> bracket_file t.
Proof.
  intros E Ft Fz. apply file_prefix in Fz as (u & U). unfold ip_new in E. destruct (wrap_ipstr t) as [[s' c]|] eqn:W; [|discriminate]. injection E as <-.
  assert (Rz : i_raw (ip_init s' c) = s').
  { unfold ip_init. repeat match goal with |- context [match ?x with _ => _ end] => destruct x; cbn [i_raw]; try reflexivity end. }
  rewrite Rz in U. subst s'. clear Rz.
  assert (NF : t <> tx "file:" ++ u).
  { intros ->. unfold file_name in Ft. replace (after (tx "file:") (tx "file:" ++ u)) with (Some u) in Ft by (symmetry; now apply after_spec). discriminate. }
  unfold wrap_ipstr in W. set (t' := match t with c :: ((_ :: _ :: _) as r) => if eqb c "["%char && eqb (last r "x"%char) "]"%char then removelast r else t | _ => t end) in W.
  assert (T : t' = tx "file:" ++ u).
  { clearbody t'. revert W. destruct (split "/"%char t') as [|a [|b [|]]]; try (intros H; now injection H).
    destruct (matches ip_re a) eqn:M; [|intros H; now injection H].
    assert (Na : a <> tx "file:" ++ u) by (intros ->; rewrite file_no_re in M; discriminate).
    destruct (negb (eqb (chomp b) []) && forallb is_digit (chomp b)).
    { destruct (read 10 (chomp b)); intros H; injection H as H; [contradiction|exact H]. }
    destruct (matches ip_re (chomp b)); [|intros H; now injection H]. destruct (masktoplen (chomp b)); cbn; intros H; [injection H as H _; contradiction|discriminate]. }
  unfold t' in T. destruct t as [|c1 [|c2 [|c3 t]]]; try contradiction.
  destruct (eqb_spec c1 "["%char) as [->|N]; cbn [andb] in T; [|contradiction].
  destruct (eqb (last (c2 :: c3 :: t) "x"%char) "]"%char) eqn:L; [|contradiction].
  assert (X : c2 :: c3 :: t = removelast (c2 :: c3 :: t) ++ [last (c2 :: c3 :: t) "x"%char]) by (apply app_removelast_last; discriminate).
  rewrite X, T. exists (u ++ [last (c2 :: c3 :: t) "x"%char]). cbn [tx]. reflexivity.
Qed.

(** ** addresses up to the way they are written *)
Definition canon (ip : ipaddr) : ipaddr :=
  mkIp (i_fam ip) (i_addr ip) (i_plen ip) (match i_fam ip with F4 | F6 => [] | _ => i_raw ip end).
Definition ecanon (e : entry) : entry := match e with EFile n => EFile n | EIp x => EIp (canon x) end.
(** made by IPAddr(text) *)
Definition fromtext (ip : ipaddr) : Prop := exists s, ip_new s CUnspec = Some ip.

Lemma fromtext_made ip : fromtext ip -> made ip. Proof. intros (s & E). exists s, CUnspec. split; [exact I|exact E]. Qed.
Lemma fromtext_fam ip : fromtext ip -> i_fam ip <> FRaw /\ (i_fam ip = FUnspec -> i_addr ip = 0 /\ i_plen ip = 0).
Proof.
  intros (s & E). unfold ip_new in E. destruct (wrap_ipstr s) as [[s' c]|] eqn:W; [|discriminate]. injection E as <-.
  assert (N : c <> CRaw).
  { intros ->. revert W. unfold wrap_ipstr. repeat match goal with |- context [match ?x with _ => _ end] => destruct x end; try congruence; unfold option_map; repeat match goal with |- context [match ?x with _ => _ end] => destruct x end; congruence. }
  unfold ip_init. destruct c; try congruence; repeat match goal with |- context [match ?x with _ => _ end] => destruct x; cbn [i_fam i_addr i_plen] end; split; try congruence; auto.
Qed.
Lemma same_canon a b : fromtext a -> fromtext b -> same_ip a b <-> canon a = canon b.
Proof.
  intros Fa Fb. unfold same_ip, canon, is_ip. split.
  - intros (E1 & E2 & E3 & E4). rewrite <- E1, <- E2, <- E3. destruct (i_fam a); try reflexivity; f_equal; apply E4; intros [X|X]; discriminate.
  - intros E. injection E as E1 E2 E3 E4. rewrite <- E1 in E4. repeat (split; [assumption|]). intros N.
    destruct (i_fam a); auto; exfalso; apply N; auto.
Qed.
Lemma ip_eq_canon a b : fromtext a -> fromtext b -> ip_eq a b = true <-> canon a = canon b.
Proof.
  intros Fa Fb. apply fromtext_fam in Fa as [Ra Ua]. apply fromtext_fam in Fb as [Rb Ub]. unfold ip_eq, canon.
  destruct (eqb_spec (i_fam a) (i_fam b)) as [E|N]; cbn [negb]; [|split; [discriminate|intros X; injection X; congruence]].
  rewrite <- E in *. destruct (i_fam a) eqn:Ea; try congruence.
  - destruct Ua as [-> ->]; [reflexivity|]. destruct Ub as [-> ->]; [reflexivity|]. rewrite eqb_eq. split; intros X; [now rewrite X|now injection X].
  - rewrite andb_true_iff, !Z.eqb_eq. split; [intros [-> ->]; reflexivity|intros X; now injection X].
  - rewrite andb_true_iff, !Z.eqb_eq. split; [intros [-> ->]; reflexivity|intros X; now injection X].
Qed.
Lemma ip_eq_comm a b : ip_eq a b = ip_eq b a.
Proof.
  unfold ip_eq. rewrite (eqb_sym (i_fam a)). destruct (eqb_spec (i_fam b) (i_fam a)) as [E|N]; cbn [negb]; [|reflexivity].
  rewrite E. destruct (i_fam a); try rewrite eqb_sym; try rewrite (Z.eqb_sym (i_addr a)), (Z.eqb_sym (i_plen a)); reflexivity.
Qed.
Lemma canon_ntoa a b : canon a = canon b -> ntoa a = ntoa b.
Proof. intros E. injection E as E1 E2 E3 E4. apply same_ntoa; auto. rewrite <- E1 in E4. destruct (i_fam a); auto. Qed.

(** ** the entries kept and the entries in force *)
Definition den (s : text) : option entry :=
  match file_name s with
  | Some n => Some (EFile n)
  | None => match ip_new s CUnspec with Some ip => Some (EIp (canon ip)) | None => None end
  end.
Definition kept (g : ign) : list entry := map EIp (g_set g) ++ g_list g.
Definition entry_ok (e : entry) : Prop := match e with EFile _ => True | EIp x => fromtext x end.
Record rel (g : ign) (L : list text) : Prop := {
  R_perm : Permutation (map Some (map ecanon (kept g))) (map den L);
  R_ok : Forall entry_ok (kept g);
  R_nobr : Forall (fun t => ~ bracket_file t) L;
  R_single : Forall (fun x => is_single x = true) (g_set g) }.

Lemma den_file s n : names_file s n -> den s = Some (EFile n).
Proof. intros H. apply file_name_spec in H. unfold den. now rewrite H. Qed.
Lemma same_entry_den s t : den s <> None -> same_entry s t <-> den s = den t.
Proof.
  intros Ns. unfold same_entry, den in *. split.
  - intros [(n & Hs & Ht)|(Hs & Ht & a & b & Ea & Eb & E)].
    + apply file_name_spec in Hs, Ht. now rewrite Hs, Ht.
    + apply no_file_spec in Hs, Ht. rewrite Hs, Ht, Ea, Eb. do 2 f_equal. apply same_canon; [exists s; auto|exists t; auto|exact E].
  - destruct (file_name s) as [n|] eqn:Es.
    + destruct (file_name t) as [m|] eqn:Et.
      * intros E. injection E as ->. left. exists m. now rewrite <- !file_name_spec.
      * destruct (ip_new t CUnspec); discriminate.
    + destruct (ip_new s CUnspec) as [a|] eqn:Ea; [|congruence]. destruct (file_name t) as [m|] eqn:Et; [discriminate|].
      destruct (ip_new t CUnspec) as [b|] eqn:Eb; [|discriminate]. intros E. right. rewrite <- !no_file_spec. repeat (split; [assumption|]).
      exists a, b. repeat (split; [reflexivity|]). apply same_canon; [exists s; auto|exists t; auto|]. congruence.
Qed.

Lemma rel_in g L e : rel g L -> In e (kept g) -> exists t, In t L /\ den t = Some (ecanon e).
Proof.
  intros R I. assert (X : In (Some (ecanon e)) (map den L)) by (eapply Permutation_in; [apply R|now apply in_map, in_map]).
  apply in_map_iff in X as (t & E & It). eauto.
Qed.
Lemma rel_back g L t : rel g L -> In t L -> exists e, In e (kept g) /\ den t = Some (ecanon e).
Proof.
  intros R I. assert (X : In (den t) (map Some (map ecanon (kept g)))) by (eapply Permutation_in; [symmetry; apply R|now apply in_map]).
  apply in_map_iff in X as (e' & E & Ie). apply in_map_iff in Ie as (e & <- & Ie). exists e. rewrite <- E. auto.
Qed.
Lemma rel_den g L t : rel g L -> In t L -> den t <> None.
Proof. intros R I. destruct (rel_back g L t R I) as (e & _ & E). congruence. Qed.

Lemma set_mem_spec ip l : fromtext ip -> Forall fromtext l -> set_mem ip l = true <-> exists x, In x l /\ canon x = canon ip.
Proof.
  intros F Fl. unfold set_mem. rewrite existsb_exists. rewrite Forall_forall in Fl. split.
  - intros (x & I & E). apply andb_true_iff in E as [_ E]. exists x. split; [exact I|]. symmetry. apply ip_eq_canon; auto.
  - intros (x & I & E). exists x. split; [exact I|]. apply andb_true_iff. split.
    + rewrite (canon_ntoa _ _ E). apply eqb_refl.
    + apply ip_eq_canon; auto.
Qed.
Lemma list_has_some ip l b : fromtext ip -> Forall entry_ok l -> list_has ip l = Some b ->
  (b = true -> exists x, In (EIp x) l /\ canon x = canon ip) /\ (b = false -> forall x, In (EIp x) l -> canon x <> canon ip).
Proof.
  intros F. induction l as [|[n|x] l IH]; cbn; intros Fl E; [injection E as <-; split; [discriminate|tauto]|discriminate|].
  inversion Fl as [|? ? Fx Fl']; subst. cbn in Fx. destruct (ip_eq x ip) eqn:Eq.
  - injection E as <-. split; [|discriminate]. intros _. exists x. split; [now left|]. now apply ip_eq_canon.
  - destruct (IH Fl' E) as [H1 H2]. split.
    + intros ->. destruct H1 as (y & I & Ey); [reflexivity|]. eauto.
    + intros -> y [Ey|I]; [injection Ey as <-; intros X; apply ip_eq_canon in X; auto; congruence|]. now apply H2.
Qed.

Lemma ok_set g : Forall entry_ok (kept g) -> Forall fromtext (g_set g).
Proof. unfold kept. rewrite Forall_app, Forall_map. now intros [H _]. Qed.
Lemma ok_list g : Forall entry_ok (kept g) -> Forall entry_ok (g_list g).
Proof. unfold kept. rewrite Forall_app. now intros [_ H]. Qed.

Lemma kept_set_app g x : Permutation (kept (with_set (g_set g ++ [x]) g)) (kept g ++ [EIp x]).
Proof.
  unfold kept, with_set. cbn [g_set g_list]. rewrite map_app. cbn [map]. rewrite <- app_assoc. rewrite <- app_assoc.
  apply Permutation_app_head. apply Permutation_app_comm.
Qed.
Lemma kept_list_app g e : kept (with_elist (g_list g ++ [e]) g) = kept g ++ [e].
Proof. unfold kept, with_elist. cbn [g_set g_list]. now rewrite app_assoc. Qed.

Lemma rel_add_entry g g' L s e : rel g L -> Permutation (kept g') (kept g ++ [e]) -> entry_ok e -> den s = Some (ecanon e) ->
  Forall (fun x => is_single x = true) (g_set g') -> ~ bracket_file s -> rel g' (L ++ [s]).
Proof.
  intros [P O Nb Sg] K Oe D S' Ns. constructor.
  - rewrite map_app. cbn [map]. rewrite D. etransitivity; [apply Permutation_map, Permutation_map, K|]. rewrite !map_app. cbn [map].
    now apply Permutation_app.
  - eapply Permutation_Forall; [symmetry; exact K|]. apply Forall_app. split; auto.
  - apply Forall_app. auto.
  - exact S'.
Qed.
Lemma set_mem_false_add ip l : set_mem ip l = false -> set_add ip l = l ++ [ip].
Proof. unfold set_add. now intros ->. Qed.

Lemma rel_add g L s g' b : rel g L -> ~ bracket_file s -> add_ignore s g = (g', b) -> exists L', entries L (IAdd s) b L' /\ rel g' L'.
Proof.
  intros R Nbs E. unfold add_ignore in E. destruct s as [|c s0]; [injection E as <- <-; exists L; split; [constructor|exact R]|].
  set (s := c :: s0) in *. destruct (file_name s) as [f|] eqn:Ef.
  { injection E as <- <-. exists (L ++ [s]). split.
    - eapply E_file. apply file_name_spec. exact Ef.
    - eapply rel_add_entry; eauto.
      + rewrite kept_list_app. reflexivity.
      + exact I.
      + unfold den. now rewrite Ef.
      + apply R. }
  assert (Nf : forall n, ~ names_file s n) by now apply no_file_spec.
  destruct (ip_new s CUnspec) as [ip|] eqn:Ei; [|injection E as <- <-; exists L; split; [constructor|exact R]].
  assert (Fi : fromtext ip) by (exists s; exact Ei).
  assert (D : den s = Some (EIp (canon ip))) by (unfold den; now rewrite Ef, Ei).
  pose proof (R_ok _ _ R) as O. pose proof (R_single _ _ R) as Sg.
  destruct (set_mem ip (g_set g)) eqn:M.
  { injection E as <- <-. apply set_mem_spec in M; [|exact Fi|now apply ok_set]. destruct M as (x & Ix & Ex).
    destruct (rel_in g L (EIp x) R) as (t & It & Et); [unfold kept; apply in_or_app; left; now apply in_map|].
    exists L. split; [|exact R]. eapply E_again; eauto. apply same_entry_den; [congruence|]. rewrite D, Et. cbn. now rewrite Ex. }
  destruct (list_has ip (g_list g)) as [h|] eqn:H; [|injection E as <- <-; exists L; split; [constructor|exact R]].
  apply list_has_some in H as [H1 H2]; [|exact Fi|now apply ok_list]. destruct h.
  { injection E as <- <-. destruct H1 as (x & Ix & Ex); [reflexivity|].
    destruct (rel_in g L (EIp x) R) as (t & It & Et); [unfold kept; apply in_or_app; now right|].
    exists L. split; [|exact R]. eapply E_again; eauto. apply same_entry_den; [congruence|]. rewrite D, Et. cbn. now rewrite Ex. }
  assert (New : forall t, In t L -> ~ same_entry s t).
  { intros t It X. apply same_entry_den in X; [|congruence]. destruct (rel_back g L t R It) as (e & Ie & Ee).
    rewrite X, Ee in D. injection D as D. destruct e as [n|x]; [discriminate|]. cbn in D. injection D as D1 D2 D3 D4.
    assert (Ex : canon x = canon ip) by (unfold canon; now rewrite D1, D2, D3, <- D1, D4, D1).
    unfold kept in Ie. apply in_app_or in Ie as [Ie|Ie].
    - apply in_map_iff in Ie as (y & Y & Iy). injection Y as ->.
      assert (Z : set_mem ip (g_set g) = true) by (apply set_mem_spec; [exact Fi|now apply ok_set|eauto]). congruence.
    - eapply H2; eauto. }
  assert (Ne : s <> []) by discriminate.
  destruct (is_single ip) eqn:Si; injection E as <- <-; exists (L ++ [s]); (split; [apply E_new; auto|]); apply (rel_add_entry g _ L s (EIp ip)); auto.
  - rewrite set_mem_false_add by exact M. apply kept_set_app.
  - rewrite set_mem_false_add by exact M. cbn [with_set g_set]. apply Forall_app. split; auto.
  - rewrite kept_list_app. reflexivity.
Qed.

Lemma list_remove_split s l l' : list_remove s l = Some l' -> exists l1 e l2, l = l1 ++ e :: l2 /\ l' = l1 ++ l2 /\ entry_is s e = true.
Proof.
  revert l'. induction l as [|e l IH]; cbn; intros l' E; [discriminate|]. destruct (entry_is s e) eqn:X.
  - injection E as <-. exists [], e, l. auto.
  - destruct (list_remove s l) as [r|]; [|discriminate]. injection E as <-. destruct (IH r eq_refl) as (l1 & e' & l2 & -> & -> & H).
    exists (e :: l1), e', l2. auto.
Qed.
Lemma set_remove_split s l l' : set_remove s l = Some l' -> exists l1 x l2, l = l1 ++ x :: l2 /\ l' = l1 ++ l2 /\ set_is s x = true.
Proof.
  revert l'. induction l as [|e l IH]; cbn; intros l' E; [discriminate|]. destruct (set_is s e) eqn:X.
  - injection E as <-. exists [], e, l. auto.
  - destruct (set_remove s l) as [r|]; [|discriminate]. injection E as <-. destruct (IH r eq_refl) as (l1 & e' & l2 & -> & -> & H).
    exists (e :: l1), e', l2. auto.
Qed.

Lemma rel_remove g g' L s e K1 K2 : rel g L -> kept g = K1 ++ e :: K2 -> kept g' = K1 ++ K2 -> Forall (fun x => is_single x = true) (g_set g') ->
  den s = Some (ecanon e) -> exists L', entries L (IDel s) true L' /\ rel g' L'.
Proof.
  intros R E1 E2 S' D. destruct (rel_in g L e R) as (t & It & Et); [rewrite E1; apply in_or_app; right; now left|].
  apply in_split in It as (L1 & L2 & ->). exists (L1 ++ L2). split.
  - apply E_del. apply same_entry_den; [congruence|]. congruence.
  - destruct R as [P O Nb Sg]. constructor; [|rewrite E2| |exact S'].
    + rewrite E1 in P. rewrite E2. rewrite !map_app in *. cbn [map] in P. rewrite Et in P.
      eapply Permutation_app_inv. exact P.
    + rewrite E1 in O. apply Forall_app in O as [O1 O2]. inversion O2; subst. apply Forall_app. auto.
    + apply Forall_app in Nb as [N1 N2]. inversion N2; subst. apply Forall_app. auto.
Qed.

Lemma rel_del g L s g' b : rel g L -> del_ignore (Some s) g = (g', b) -> exists L', entries L (IDel s) b L' /\ rel g' L'.
Proof.
  intros R E. pose proof (R_ok _ _ R) as O. pose proof (R_single _ _ R) as Sg. unfold del_ignore in E.
  assert (FL : forall g' b, (match list_remove s (g_list g) with Some l => (with_elist l g, true) | None => (g, false) end) = (g', b) ->
    exists L', entries L (IDel s) b L' /\ rel g' L').
  { clear E g' b. intros g' b E. destruct (list_remove s (g_list g)) as [l|] eqn:X; injection E as <- <-; [|exists L; split; [constructor|exact R]].
    apply list_remove_split in X as (l1 & e & l2 & El & -> & Hi).
    assert (Oe : entry_ok e). { apply ok_list in O. rewrite El in O. apply Forall_app in O as [_ O]. now inversion O. }
    eapply (rel_remove g _ L s e (map EIp (g_set g) ++ l1) l2); eauto.
    - unfold kept. rewrite El. now rewrite app_assoc.
    - unfold kept, with_elist. cbn [g_set g_list]. now rewrite app_assoc.
    - destruct e as [n|x]; cbn [entry_is ecanon] in Hi |- *; unfold den.
      + destruct (file_name s) as [f|]; [|discriminate]. apply eqb_eq in Hi as ->. reflexivity.
      + destruct (ip_new s CUnspec) as [y|] eqn:Ey; [|discriminate]. cbn in Oe. apply ip_eq_canon in Hi; [|exact Oe|now exists s].
        destruct (file_name s) as [f|] eqn:Ef; [|now rewrite Hi].
        (* a text that names a file is no address text, and no such entry is kept *)
        exfalso. assert (X : In (EIp x) (kept g)) by (unfold kept; rewrite El; apply in_or_app; right; apply in_or_app; right; now left).
        destruct (rel_in g L (EIp x) R X) as (t & It & Et). unfold den in Et. destruct (file_name t) as [m|] eqn:Ft; [discriminate|].
        destruct (ip_new t CUnspec) as [z|] eqn:Ez; [|discriminate]. cbn in Et. injection Et as Z1 Z2 Z3 Z4.
        assert (Czy : canon z = canon y) by (rewrite <- Hi; unfold canon; now rewrite Z1, Z2, Z3, <- Z1, Z4, Z1).
        rewrite (file_ip _ _ Ef) in Ey. injection Ey as <-. unfold canon in Czy. cbn in Czy. injection Czy as Y1 _ _ Y4. rewrite Y1 in Y4.
        pose proof (R_nobr _ _ R) as Nb. rewrite Forall_forall in Nb. apply (Nb t It). eapply name_of_file; eauto. rewrite Y4. exact Ef. }
  destruct (file_name s) as [f|] eqn:Ef; [now apply FL|].
  destruct (set_remove s (g_set g)) as [l|] eqn:X; [|now apply FL]. injection E as <- <-.
  apply set_remove_split in X as (l1 & x & l2 & El & -> & Hi).
  assert (Ox : fromtext x). { apply ok_set in O. rewrite El in O. apply Forall_app in O as [_ O]. now inversion O. }
  eapply (rel_remove g _ L s (EIp x) (map EIp l1) (map EIp l2 ++ g_list g)); eauto.
  - unfold kept. rewrite El, map_app. cbn [map]. now rewrite <- app_assoc.
  - unfold kept, with_set. cbn [g_set g_list]. now rewrite map_app, <- app_assoc.
  - cbn [with_set g_set]. rewrite El in Sg. apply Forall_app in Sg as [S1 S2]. inversion S2; subst. apply Forall_app. auto.
  - unfold set_is in Hi. apply andb_true_iff in Hi as [_ Hi]. unfold den. rewrite Ef. destruct (ip_new s CUnspec) as [y|] eqn:Ey; [|discriminate].
    apply ip_eq_canon in Hi; [|exact Ox|now exists s]. cbn. now rewrite Hi.
Qed.

(** ** histories *)
Lemma entries_den L o b L1 L2 : (forall t, In t L -> den t <> None) -> entries L o b L1 -> entries L o b L2 -> Permutation (map den L1) (map den L2).
Proof.
  intros D E1 E2. inversion E1; subst; inversion E2; subst; try reflexivity; try (exfalso; match goal with H1 : names_file ?s _, H2 : forall n, ~ names_file ?s n |- _ => now apply H2 in H1 end);
    try (exfalso; match goal with H1 : In ?t ?l, H2 : same_entry ?s ?t, H3 : forall t, In t ?l -> ~ same_entry ?s t |- _ => now apply H3 in H1 end);
    try (exfalso; match goal with H : names_file [] _ |- _ => destruct H as (k & _ & X & _); discriminate end); try congruence; try contradiction.
  match goal with H1 : same_entry s t, H2 : same_entry s ?u |- _ => assert (X : den s <> None /\ den t = den u) end.
  { assert (Ns : den s <> None).
    { match goal with H1 : same_entry s t |- _ => destruct H1 as [(n & Hs & _)|(Hs & _ & a & b & Ea & _)] end.
      - rewrite (den_file _ _ Hs). discriminate.
      - unfold den. apply no_file_spec in Hs. rewrite Hs, Ea. discriminate. }
    split; [exact Ns|]. repeat match goal with H : same_entry s _ |- _ => apply same_entry_den in H; [|exact Ns] end. congruence. }
  destruct X as [_ X].
  match goal with H : ?A ++ ?u :: ?B = L0 ++ t :: L3 |- _ => assert (Y : map den (A ++ u :: B) = map den (L0 ++ t :: L3)) by now rewrite H end.
  rewrite !map_app in *. cbn [map] in Y. rewrite X in Y. eapply Permutation_app_inv. rewrite Y. reflexivity.
Qed.

Lemma entries_nobr L o b L' : Forall (fun t => ~ bracket_file t) L -> (forall s, o = IAdd s -> ~ bracket_file s) -> entries L o b L' -> Forall (fun t => ~ bracket_file t) L'.
Proof.
  intros F N E. inversion E; subst; auto.
  - apply Forall_app. split; [exact F|]. constructor; [now apply N|constructor].
  - apply Forall_app. split; [exact F|]. constructor; [now apply N|constructor].
  - apply Forall_app in F as [F1 F2]. inversion F2; subst. apply Forall_app. auto.
Qed.

Lemma rel_step_ex g L o g' b : rel g L -> (forall s, o = IAdd s -> ~ bracket_file s) -> ign_step g o = (g', b) -> exists L', entries L o b L' /\ rel g' L'.
Proof.
  intros R N E. assert (Keep : g_set g' = g_set g -> g_list g' = g_list g -> rel g' L).
  { intros E1 E2. destruct R as [P O Nb Sg]. constructor; unfold kept in *; rewrite ?E1, ?E2; auto. }
  destruct o as [s|s| |x|c|[[[k m] t]|]|w q]; cbn [ign_step] in E.
  - eapply rel_add; eauto.
  - eapply rel_del; eauto.
  - cbn in E. injection E as <- <-. exists []. split; [constructor|]. constructor; constructor.
  - injection E as <- <-. exists L. split; [now constructor|]. now apply Keep.
  - injection E as <- <-. exists L. split; [now constructor|]. now apply Keep.
  - injection E as <- <-. exists L. split; [now constructor|]. now apply Keep.
  - injection E as <- <-. exists L. split; [now constructor|]. now apply Keep.
  - injection E as <- <-. exists L. split; [now constructor|].
    assert (K : g_set (fst (in_ignore g w q)) = g_set g /\ g_list (fst (in_ignore g w q)) = g_list g).
    { unfold in_ignore, check_ignore, remember. destruct (g_cache g) as [[k c]|]; [destruct (ca_get c (w_now w) (str (q_expand q k))) as [c' [v|]]|];
        cbn [fst]; auto; cbn [with_cache g_self g_set g_list g_cmd g_cache]; repeat match goal with |- context [match ?x with _ => _ end] => destruct x end; auto. }
    destruct K. now apply Keep.
Qed.
Lemma rel_step g L o g' b L' : rel g L -> (forall s, o = IAdd s -> ~ bracket_file s) -> ign_step g o = (g', b) -> entries L o b L' -> rel g' L'.
Proof.
  intros R N E En. destruct (rel_step_ex g L o g' b R N E) as (L2 & E2 & [P O Nb Sg]). constructor; auto.
  - rewrite P. eapply entries_den; eauto. intros t It. eapply rel_den; eauto.
  - eapply entries_nobr; [apply R|exact N|exact En].
Qed.
Lemma rel_run ops : forall g L g' bs L', rel g L -> (forall s, In (IAdd s) ops -> ~ bracket_file s) -> ign_run g ops = (g', bs) -> in_force L ops bs L' -> rel g' L'.
Proof.
  induction ops as [|o ops IH]; intros g L g' bs L' R N E F; cbn in E.
  - injection E as <- <-. inversion F; subst. exact R.
  - destruct (ign_step g o) as [g1 b] eqn:S. destruct (ign_run g1 ops) as [g2 bs'] eqn:Rn. injection E as <- <-. inversion F; subst.
    eapply IH; [| |exact Rn|eassumption].
    + eapply rel_step; eauto. intros s ->. apply N. now left.
    + intros s I. apply N. now right.
Qed.
Lemma in_force_exists ops : forall g L, rel g L -> (forall s, In (IAdd s) ops -> ~ bracket_file s) -> exists L', in_force L ops (snd (ign_run g ops)) L'.
Proof.
  induction ops as [|o ops IH]; intros g L R N; cbn; [exists L; constructor|].
  destruct (ign_step g o) as [g1 b] eqn:S. destruct (rel_step_ex g L o g1 b R) as (L1 & E1 & R1); [intros s ->; apply N; now left|exact S|].
  destruct (IH g1 L1 R1) as (L' & F); [intros s I; apply N; now right|]. exists L'. destruct (ign_run g1 ops) as [g2 bs]. cbn [snd] in *. econstructor; eauto.
Qed.
Lemma rel_init : rel ign_init [].
Proof. constructor; constructor. Qed.

(** ** the options *)
Lemma in_ignore_options g w q : let g' := fst (in_ignore g w q) in g_self g' = g_self g /\ g_cmd g' = g_cmd g /\ (g_cache g = None -> g_cache g' = None).
Proof.
  assert (Ck : forall g k, let g' := fst (check_ignore g w q k) in g_self g' = g_self g /\ g_cmd g' = g_cmd g /\ (g_cache g = None -> g_cache g' = None)).
  { clear g. intros g k. unfold check_ignore, remember. destruct (g_cache g) as [[k' c]|] eqn:C;
      repeat match goal with |- context [match ?x with _ => _ end] => destruct x eqn:? end; cbn; rewrite ?C; repeat split; congruence. }
  unfold in_ignore. destruct (g_cache g) as [[k c]|] eqn:C; [|destruct (Ck g ""%string) as (H1 & H2 & H3); auto].
  destruct (ca_get c (w_now w) (str (q_expand q k))) as [c' [v|]]; cbn [fst]; [split; [reflexivity|split; [reflexivity|discriminate]]|].
  destruct (Ck (with_cache (Some (k, c')) g) (str (q_expand q k))) as (H1 & H2 & _). cbn [with_cache g_self g_cmd] in H1, H2.
  split; [exact H1|split; [exact H2|discriminate]].
Qed.
Lemma step_options g o g' b : ign_step g o = (g', b) -> g_self g' = last_self (g_self g) [o] /\ g_cmd g' = last_command (g_cmd g) [o] /\
  ((forall c, o <> ICache (Some c)) -> g_cache g = None -> g_cache g' = None).
Proof.
  intros E. destruct o as [s|s| |x|c|[[[k m] t]|]|w q]; cbn [ign_step last_self last_command] in *.
  - unfold add_ignore in E. repeat match type of E with context [match ?x with _ => _ end] => destruct x end; injection E as <- <-; auto.
  - unfold del_ignore in E. repeat match type of E with context [match ?x with _ => _ end] => destruct x end; injection E as <- <-; auto.
  - injection E as <- <-. auto.
  - injection E as <- <-. auto.
  - injection E as <- <-. auto.
  - injection E as <- <-. repeat split; auto. intros N. exfalso. now apply (N (k, m, t)).
  - injection E as <- <-. auto.
  - injection E as <- <-. pose proof (in_ignore_options g w q) as (-> & -> & H). auto.
Qed.
Lemma run_options ops : forall g g' bs, ign_run g ops = (g', bs) -> g_self g' = last_self (g_self g) ops /\ g_cmd g' = last_command (g_cmd g) ops /\
  (no_cache ops -> g_cache g = None -> g_cache g' = None).
Proof.
  induction ops as [|o ops IH]; intros g g' bs E; cbn in E; [injection E as <- <-; auto|].
  destruct (ign_step g o) as [g1 b] eqn:S. destruct (ign_run g1 ops) as [g2 bs'] eqn:R. injection E as <- <-.
  apply step_options in S as (S1 & S2 & S3). apply IH in R as (R1 & R2 & R3).
  split; [|split].
  - rewrite R1, S1. destruct o; reflexivity.
  - rewrite R2, S2. destruct o; reflexivity.
  - intros N C. apply R3; [intros c I; apply (N c); now right|]. apply S3; auto. intros c ->. apply (N c). now left.
Qed.

(** ** what the entries kept cover *)
Definition ecovers (w : world) (e : entry) (ip : ipaddr) : Prop :=
  match e with EFile n => exists t, In t (w_file w n) /\ lies_in w ip t | EIp x => lies_in w ip x end.
Lemma single_ip ip : address ip -> is_ip ip /\ i_plen ip = width (i_fam ip).
Proof. unfold address, is_single, is_ip. destruct (i_fam ip); try discriminate; intros H; split; auto; cbn; lia. Qed.
Lemma lies_canon w ip x : lies_in w ip (canon x) <-> lies_in w ip x.
Proof.
  unfold lies_in, holds. cbn [canon i_fam i_addr i_plen i_raw].
  split; (intros [H|(F & N & r & Ir & S)]; [now left|right]); rewrite F in *; (split; [reflexivity|split; [exact N|now exists r]]).
Qed.
Lemma covers_den w s ip : covers w s ip <-> exists e, den s = Some e /\ ecovers w e ip.
Proof.
  unfold covers, den. split.
  - intros [(n & t & Hn & It & Lt)|(Nf & net & En & Ln)].
    + apply file_name_spec in Hn. rewrite Hn. eexists. split; [reflexivity|]. cbn. eauto.
    + apply no_file_spec in Nf. rewrite Nf, En. eexists. split; [reflexivity|]. cbn [ecovers]. now apply lies_canon.
  - intros (e & D & C). destruct (file_name s) as [n|] eqn:F.
    + injection D as <-. destruct C as (t & It & Lt). left. exists n, t. split; [now apply file_name_spec|split; [exact It|exact Lt]].
    + destruct (ip_new s CUnspec) as [net|] eqn:E; [|discriminate]. injection D as <-. cbn [ecovers] in C. apply (lies_canon w ip net) in C. right.
      split; [now apply no_file_spec|]. exists net. split; [reflexivity|exact C].
Qed.
Lemma ecovers_canon w e ip : ecovers w (ecanon e) ip <-> ecovers w e ip.
Proof. destruct e; cbn [ecanon ecovers]; [tauto|apply lies_canon]. Qed.

Lemma eq_single ip x : address ip -> proper x -> is_single x = true -> (eqb (ntoa x) (ntoa ip) && ip_eq ip x) = true <-> holds x (i_fam ip) (i_addr ip).
Proof.
  intros A P Sx. apply single_ip in A as [Ii Wi]. pose proof (single_ip x Sx) as [Ix Wx]. unfold holds. rewrite andb_true_iff. split.
  - intros [_ E]. apply ip_eq_same in E; [|destruct Ii as [X|X]; rewrite X; discriminate|destruct Ii as [X|X]; rewrite X; discriminate].
    destruct E as (E1 & E2 & _). split; [now symmetry|]. rewrite E2. pose proof (size_pos (i_fam ip) (i_plen x)). lia.
  - intros [F R]. rewrite Wx, F in R. rewrite size_one in R by lia. assert (A : i_addr ip = i_addr x) by lia.
    assert (Pl : i_plen ip = i_plen x) by (rewrite Wi, Wx, F; reflexivity). split.
    + rewrite (same_ntoa ip x); auto; [apply eqb_refl|]. destruct Ii; auto.
    + unfold ip_eq. rewrite F, eqb_refl, A, Pl, !Z.eqb_refl. cbn [negb]. destruct Ii as [-> | ->]; reflexivity.
Qed.
Lemma lies_ip w ip t : is_ip t -> lies_in w ip t <-> holds t (i_fam ip) (i_addr ip).
Proof. intros It. unfold lies_in. split; [intros [H|(F & _)]; [exact H|destruct It; congruence]|auto]. Qed.
Lemma in_net_lies w ip t : address ip -> proper t -> is_in_net (w_resolve w) ip t = true <-> lies_in w ip t.
Proof.
  intros A P. apply single_ip in A as [Ii _]. destruct (i_fam t) eqn:F.
  - destruct (eqb_spec (i_raw t) []) as [E|N].
    + unfold is_in_net, is_valid. rewrite F, E, eqb_refl. cbn [negb andb]. rewrite eqb_refl. cbn [negb andb]. unfold in_net_num. rewrite F.
      replace (eqb (i_fam ip) FUnspec) with false by (destruct Ii as [-> | ->]; reflexivity). cbn [negb]. split; [discriminate|].
      intros [[X _]|(_ & X & _)]; [destruct Ii; congruence|congruence].
    + rewrite C30_name by auto. unfold lies_in. split.
      * intros H. right. auto.
      * intros [[X _]|(_ & _ & H)]; [destruct Ii; congruence|exact H].
  - unfold is_in_net, is_valid. rewrite F. replace (eqb FRaw FUnspec) with false by reflexivity. cbn [negb andb]. unfold in_net_num. rewrite F.
    replace (eqb (i_fam ip) FRaw) with false by (destruct Ii as [-> | ->]; reflexivity). cbn [negb]. split; [discriminate|].
    intros [[X _]|(X & _)]; [destruct Ii; congruence|congruence].
  - assert (It : is_ip t) by (unfold is_ip; auto). rewrite lies_ip by exact It. unfold is_in_net, is_valid. rewrite F. replace (eqb F4 FUnspec) with false by reflexivity.
    cbn [negb andb]. now apply in_net_holds.
  - assert (It : is_ip t) by (unfold is_ip; auto). rewrite lies_ip by exact It. unfold is_in_net, is_valid. rewrite F. replace (eqb F6 FUnspec) with false by reflexivity.
    cbn [negb andb]. now apply in_net_holds.
Qed.
Lemma contains_lies w ip t : address ip -> proper t -> contains (w_resolve w) t ip = true <-> lies_in w ip t.
Proof.
  intros A P. unfold contains. rewrite orb_true_iff, in_net_lies by auto. split; [|auto]. intros [E|H]; [|exact H].
  apply single_ip in A as [Ii _]. apply ip_eq_same in E; [|destruct Ii as [X|X]; rewrite X; discriminate|destruct Ii as [X|X]; rewrite X; discriminate].
  destruct E as (E1 & E2 & _). left. split; [now symmetry|]. rewrite E2. pose proof (size_pos (i_fam ip) (i_plen t)). lia.
Qed.
Lemma set_of_lies w ip l : address ip -> (forall n, In n l -> made n) -> ipset_mem (w_resolve w) ip (ipset_of l) = true <-> exists t, In t l /\ lies_in w ip t.
Proof.
  intros A M. pose proof (C33_member (w_resolve w) [SSet l] ip) as H. cbn in H. rewrite H by auto. split; intros (t & It & C); exists t; (split; [exact It|]);
    apply contains_lies in C || apply contains_lies; auto using made_proper.
Qed.

Lemma kept_covers w ip g : address ip -> sane_world w -> Forall entry_ok (kept g) -> Forall (fun x => is_single x = true) (g_set g) ->
  (set_mem ip (g_set g) || existsb (in_entry w ip) (g_list g) = true) <-> exists e, In e (kept g) /\ ecovers w e ip.
Proof.
  intros A [_ Wf] O Sg. rewrite orb_true_iff. unfold set_mem. rewrite !existsb_exists. pose proof (ok_set _ O) as Os. pose proof (ok_list _ O) as Ol. rewrite Forall_forall in *. split.
  - intros [(x & I & E)|(e & I & E)].
    + exists (EIp x). split; [unfold kept; apply in_or_app; left; now apply in_map|]. cbn. left. apply eq_single; auto. apply made_proper, fromtext_made. auto.
    + exists e. split; [unfold kept; apply in_or_app; now right|]. destruct e as [n|x]; cbn [in_entry ecovers] in *.
      * apply set_of_lies in E; auto. intros m Im. now apply (Wf n).
      * apply in_net_lies in E; auto. apply made_proper, fromtext_made. now apply (Ol (EIp x)).
  - intros (e & I & C). unfold kept in I. apply in_app_or in I as [I|I].
    + apply in_map_iff in I as (x & <- & I). cbn in C. left. exists x. split; [exact I|]. apply eq_single; auto.
      * apply made_proper, fromtext_made. auto.
      * apply lies_ip in C; [exact C|]. now apply single_ip, Sg.
    + right. exists e. split; [exact I|]. destruct e as [n|x]; cbn [in_entry ecovers] in *.
      * apply set_of_lies; auto. intros m Im. now apply (Wf n).
      * apply in_net_lies; auto. apply made_proper, fromtext_made. now apply (Ol (EIp x)).
Qed.
Lemma rel_covers w ip g L : address ip -> sane_world w -> rel g L ->
  (set_mem ip (g_set g) || existsb (in_entry w ip) (g_list g) = true) <-> exists s, In s L /\ covers w s ip.
Proof.
  intros A W R. rewrite kept_covers; auto; try apply R. split.
  - intros (e & I & C). destruct (rel_in g L e R I) as (t & It & Et). exists t. split; [exact It|]. apply covers_den. exists (ecanon e). split; [exact Et|]. now apply ecovers_canon.
  - intros (s & I & C). apply covers_den in C as (e & De & C). destruct (rel_back g L s R I) as (e' & Ie & Ee). exists e'. split; [exact Ie|]. apply ecovers_canon. congruence.
Qed.

(** ** the answer *)
Definition decided (g : ign) (w : world) (q : query) : option bool := snd (check_ignore g w q ""%string).
Lemma check_answer g w q k : snd (check_ignore g w q k) = decided g w q.
Proof. unfold decided, check_ignore. repeat match goal with |- context [match ?x with _ => _ end] => destruct x end; reflexivity. Qed.
Lemma decided_true g w q L : address (q_ip q) -> sane_world w -> rel g L ->
  decided g w q = Some true <-> (g_self g = true /\ exists o, In o (w_own w) /\ lies_in w (q_ip q) o) \/ (exists s, In s L /\ covers w s (q_ip q)) \/
    (g_cmd g <> [] /\ w_run w (q_expand q (g_cmd g)) = Some 0).
Proof.
  intros A W R. rewrite <- (rel_covers w (q_ip q) g L) by auto. unfold decided, check_ignore.
  assert (So : ipset_mem (w_resolve w) (q_ip q) (ipset_of (w_own w)) = true <-> exists o, In o (w_own w) /\ lies_in w (q_ip q) o) by (apply set_of_lies; [exact A|apply W]).
  destruct (g_self g) eqn:Sf; cbn [andb].
  - destruct (ipset_mem (w_resolve w) (q_ip q) (ipset_of (w_own w))) eqn:M.
    + split; [|reflexivity]. intros _. left. split; [reflexivity|now apply So].
    + destruct (set_mem (q_ip q) (g_set g)) eqn:Sm; [cbn; tauto|]. cbn [orb].
      destruct (existsb (in_entry w (q_ip q)) (g_list g)) eqn:Ex; [cbn; tauto|]. destruct (g_cmd g) as [|c r] eqn:C.
      * cbn. split; [discriminate|]. intros [[_ H]|[H|[H _]]]; [apply So in H; discriminate|discriminate|congruence].
      * destruct (w_run w (q_expand q (c :: r))) as [code|] eqn:Rn; cbn [snd]; [|split; [discriminate|intros [[_ H]|[H|[_ H]]]; [apply So in H; discriminate|discriminate|discriminate]]].
        split.
        -- intros E. injection E as E. right. right. split; [discriminate|]. f_equal. lia.
        -- intros [[_ H]|[H|[_ H]]]; [apply So in H; discriminate|discriminate|]. injection H as ->. reflexivity.
  - destruct (set_mem (q_ip q) (g_set g)) eqn:Sm; [cbn; tauto|]. cbn [orb].
    destruct (existsb (in_entry w (q_ip q)) (g_list g)) eqn:Ex; [cbn; tauto|]. destruct (g_cmd g) as [|c r] eqn:C.
    + cbn. split; [discriminate|]. intros [[H _]|[H|[H _]]]; try discriminate; congruence.
    + destruct (w_run w (q_expand q (c :: r))) as [code|] eqn:Rn; cbn [snd]; [|split; [discriminate|intros [[H _]|[H|[_ H]]]; discriminate]].
      split.
      * intros E. injection E as E. right. right. split; [discriminate|]. f_equal. lia.
      * intros [[H _]|[H|[_ H]]]; try discriminate. injection H as ->. reflexivity.
Qed.
