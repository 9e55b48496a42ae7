(** Proofs about tags (see FailRegex_Props.v). *)
From Verif Require Import Base Text Backtrack Tags_Model FailRegex_Model FailRegex_Spec.
From Coq Require Import ZifyBool ZifyNat.
Local Open Scope list_scope.
Local Open Scope Z_scope.

(** ** Characters *)
Lemma tag_char_in c : tag_char c = true \/ c = "/"%char <-> in_tag c.
Proof.
  unfold tag_char, word_char, in_tag, letter_digit, is_digit. rewrite !orb_true_iff, !andb_true_iff, !Z.leb_le, !eqb_eq. tauto.
Qed.
Lemma tag_char_slash : tag_char "/"%char = false. Proof. reflexivity. Qed.
Lemma tag_char_gt : tag_char ">"%char = false. Proof. reflexivity. Qed.
Lemma name_char_in c : name_char c = true <-> in_name c.
Proof.
  unfold name_char, in_name, is_digit. rewrite !orb_true_iff, !andb_true_iff, !Z.leb_le, !eqb_eq. tauto.
Qed.
Lemma name_tag c : in_name c -> tag_char c = true.
Proof.
  intros H. unfold tag_char, word_char, is_digit. rewrite !orb_true_iff, !andb_true_iff, !Z.leb_le, !eqb_eq. unfold in_name in H. tauto.
Qed.
Lemma forallb_name n : forallb name_char n = true <-> Forall in_name n.
Proof. rewrite forallb_forall, Forall_forall. split; intros H c I; apply name_char_in; auto. Qed.
Lemma gt_not_in_tag : ~ in_tag ">"%char.
Proof. rewrite <- tag_char_in, tag_char_gt. intros [H|H]; discriminate. Qed.
Lemma lt_not_in_tag : ~ in_tag "<"%char.
Proof. rewrite <- tag_char_in. intros [H|H]; discriminate. Qed.
Lemma slash_not_in_name : ~ in_name "/"%char.
Proof. rewrite <- name_char_in. discriminate. Qed.

(** ** Taking a tag *)
Definition perhaps_slash (s : text) : Prop := s = [] \/ s = ["/"%char].
Lemma slash_tag s1 c r : perhaps_slash s1 -> c <> "/"%char -> slash (s1 ++ c :: r) = (s1, c :: r).
Proof.
  intros H N. apply eqb_neq in N. destruct H as [-> | ->]; cbn [app slash]; [now rewrite N|]. now rewrite eqb_refl.
Qed.
Lemma take_bracket s1 w s2 rest : perhaps_slash s1 -> w <> [] -> Forall (fun c => tag_char c = true) w -> perhaps_slash s2 ->
  take_tag (bracket (s1 ++ w ++ s2) ++ rest) = Some (s1 ++ w ++ s2, rest).
Proof.
  intros H1 N F H2. unfold bracket. change (tx "<") with ["<"%char]. change (tx ">") with [">"%char]. cbn [app]. rewrite <- !app_assoc. cbn [app].
  unfold take_tag. rewrite eqb_refl. destruct w as [|c w]; [congruence|]. inversion F as [|? ? Fc Fw]; subst.
  assert (Nc : c <> "/"%char) by (intros ->; discriminate).
  cbn [app]. rewrite slash_tag by assumption.
  change (c :: w ++ s2 ++ ">"%char :: rest) with ((c :: w) ++ s2 ++ ">"%char :: rest).
  rewrite run_app; [|exact F|destruct H2 as [-> | ->]; reflexivity].
  rewrite slash_tag by (auto; discriminate). rewrite eqb_refl. reflexivity.
Qed.
(** A tag consists of characters of tags. *)
Lemma slash_spec s : exists s1, perhaps_slash s1 /\ s = s1 ++ snd (slash s) /\ fst (slash s) = s1.
Proof.
  destruct s as [|c r]; cbn [slash]; [exists []; unfold perhaps_slash; auto|]. destruct (eqb_spec c "/"%char) as [->|N]; cbn [fst snd].
  - exists ["/"%char]. unfold perhaps_slash. auto.
  - exists []. unfold perhaps_slash. auto.
Qed.
Lemma take_tag_inv s tn rest : take_tag s = Some (tn, rest) -> s = "<"%char :: tn ++ ">"%char :: rest /\ Forall in_tag tn.
Proof.
  destruct s as [|c r]; cbn [take_tag]; [discriminate|]. destruct (eqb_spec c "<"%char) as [->|N]; [|discriminate].
  destruct (slash_spec r) as (s1 & P1 & E1 & F1). destruct (slash r) as [x r1]. cbn [fst snd] in E1, F1. subst x.
  destruct (run_spec tag_char r1) as (E2 & Fw & _). destruct (run tag_char r1) as [w r2]. cbn [fst snd] in E2, Fw.
  destruct (slash_spec r2) as (s2 & P2 & E3 & F3). destruct (slash r2) as [x r3]. cbn [fst snd] in E3, F3. subst x.
  destruct w as [|d w]; [discriminate|]. destruct r3 as [|e r3]; [discriminate|]. destruct (eqb_spec e ">"%char) as [->|N]; [|discriminate].
  intros H. injection H as <- <-. split.
  - rewrite E1, E2, E3. cbn [app]. rewrite <- !app_assoc. cbn [app]. rewrite <- !app_assoc. reflexivity.
  - assert (Ps : forall s, perhaps_slash s -> Forall in_tag s).
    { intros s [-> | ->]; [constructor|]. constructor; [|constructor]. apply tag_char_in. now right. }
    apply Forall_app. split; [auto|]. change (d :: w ++ s2) with ((d :: w) ++ s2). apply Forall_app. split; [|auto].
    eapply Forall_impl; [|exact Fw]. intros a Ha. apply tag_char_in. now left.
Qed.
Lemma take_tag_lt c r : c <> "<"%char -> take_tag (c :: r) = None.
Proof. intros N. cbn [take_tag]. apply eqb_neq in N. now rewrite N. Qed.
Lemma first_outside (n n' : text) c c' d d' : n ++ c :: d = n' ++ c' :: d' -> Forall in_tag n -> ~ in_tag c -> Forall in_tag n' -> ~ in_tag c' -> n = n' /\ c = c' /\ d = d'.
Proof.
  revert n'. induction n as [|x n IH]; intros [|y n'] E F N F' N'; cbn [app] in E; injection E as E1 E2; subst.
  - auto.
  - inversion F'; subst. contradiction.
  - inversion F; subst. contradiction.
  - inversion F; inversion F'; subst. destruct (IH n' E2) as (-> & -> & ->); auto.
Qed.

(** ** Substitution of one tag *)
Lemma tx_keys n : dget n rh4tag <> None -> In n (dkeys rh4tag).
Proof. intros H. destruct (dget n rh4tag) as [r|] eqn:E; [|congruence]. eapply dget_key, E. Qed.
Lemma standard_eq n : standard n = dget n rh4tag.
Proof.
  destruct (dget n rh4tag) as [r|] eqn:E.
  - assert (I : In n (dkeys rh4tag)) by (eapply dget_key; exact E).
    revert E. cbn [rh4tag dkeys map fst In] in I. repeat (destruct I as [<- | I]; [vm_compute; congruence|]). contradiction.
  - destruct (standard n) as [r|] eqn:Es; [|reflexivity]. unfold standard in Es.
    destruct (find _ standard_tags) as [[m r']|] eqn:F; [|discriminate]. injection Es as ->.
    apply find_some in F as [I He]. apply eqb_true in He. cbn [fst] in He. subst n. exfalso. revert E.
    cbn [standard_tags In] in I. repeat (destruct I as [I | I]; [injection I as <- <-; vm_compute; discriminate|]). contradiction.
Qed.
Lemma dget_name (s m : text) : Forall in_name m -> perhaps_slash s -> dget (s ++ tx "F-" ++ m) rh4tag = None.
Proof.
  intros F Ps. destruct (dget (s ++ tx "F-" ++ m) rh4tag) as [r|] eqn:E; [|reflexivity]. exfalso.
  assert (I : In (s ++ tx "F-" ++ m) (dkeys rh4tag)) by (eapply dget_key; exact E). clear E.
  assert (Sl : ~ In "/"%char m).
  { intros J. rewrite Forall_forall in F. exact (slash_not_in_name (F _ J)). }
  destruct Ps as [-> | ->]; change (tx "F-") with ["F"; "-"]%char in I; cbn [app] in I; cbn [rh4tag dkeys map fst In] in I;
    repeat (destruct I as [I | I]; [try discriminate I; injection I as <-; apply Sl; vm_compute; auto 20|]); contradiction.
Qed.
Lemma cust_open m : name m -> cust_name (tx "F-" ++ m) = Some (false, m).
Proof.
  intros [N F]. unfold cust_name. change (tx "F-") with ["F"; "-"]%char. cbn [app slash]. replace (eqb "F"%char "/"%char) with false by reflexivity.
  rewrite !eqb_refl. apply forallb_name in F. rewrite F. destruct m; [congruence|]. reflexivity.
Qed.
Lemma cust_close m : name m -> cust_name (tx "/F-" ++ m) = Some (true, m).
Proof.
  intros [N F]. unfold cust_name. change (tx "/F-") with ["/"; "F"; "-"]%char. cbn [app slash]. rewrite !eqb_refl.
  apply forallb_name in F. rewrite F. destruct m; [congruence|]. reflexivity.
Qed.
Lemma cust_inv tn b m : cust_name tn = Some (b, m) -> name m /\ tn = (if b then tx "/F-" else tx "F-") ++ m.
Proof.
  unfold cust_name. destruct (slash_spec tn) as (s & Ps & E & Es). destruct (slash tn) as [s' r]. cbn [fst snd] in *. subst s'.
  destruct r as [|f [|d n]]; try discriminate. destruct (eqb_spec f "F"%char) as [->|]; [|discriminate].
  destruct (eqb_spec d "-"%char) as [->|]; [|discriminate]. cbn [andb]. destruct (eqb_spec n []) as [->|Nn]; [discriminate|]. cbn [negb andb].
  destruct (forallb name_char n) eqn:Fn; [|discriminate]. intros H. injection H as <- <-. split; [split; [exact Nn|now apply forallb_name]|].
  destruct Ps as [-> | ->]; exact E.
Qed.
Lemma group_name_eq n : map_tag2opt n = group_name n.
Proof.
  unfold map_tag2opt, group_name. assert (E : map lower_char n = map small n) by reflexivity. now rewrite E.
Qed.
Lemma host_eq d : (if eqb d (tx "no") then r_addr else r_host) = host d.
Proof. unfold host. destruct (eqb d (tx "no")); vm_compute; reflexivity. Qed.

Lemma subst_host d st : subst_tag d st (tx "HOST") = (st, host d).
Proof. unfold subst_tag. rewrite eqb_refl. now rewrite host_eq. Qed.
Lemma subst_skip d st : subst_tag d st (tx "SKIPLINES") = (mkTags (open_tags st) (nl st + 1), tx "\n(?P<skiplines" ++ dec (nl st) ++ tx ">(?:(?:.*\n)*?))").
Proof. unfold subst_tag. replace (eqb (tx "SKIPLINES") (tx "HOST")) with false by reflexivity. now rewrite eqb_refl. Qed.
Lemma subst_std d st n r : standard n = Some r -> subst_tag d st n = (st, r).
Proof.
  intros E. rewrite standard_eq in E. unfold subst_tag.
  destruct (eqb_spec n (tx "HOST")) as [->|N1]; [vm_compute in E; discriminate|].
  destruct (eqb_spec n (tx "SKIPLINES")) as [->|N2]; [vm_compute in E; discriminate|]. now rewrite E.
Qed.
Lemma subst_open d st n : name n -> subst_tag d st (tx "F-" ++ n) = (mkTags (n :: open_tags st) (nl st), tx "(?P<" ++ group_name n ++ tx ">").
Proof.
  intros H. unfold subst_tag.
  destruct (eqb_spec (tx "F-" ++ n) (tx "HOST")) as [E|N1]; [discriminate|].
  destruct (eqb_spec (tx "F-" ++ n) (tx "SKIPLINES")) as [E|N2]; [discriminate|].
  assert (D : @dget text text _ (tx "F-" ++ n) rh4tag = None) by (apply (dget_name [] n); [apply H|now left]). rewrite D.
  rewrite cust_open by exact H. now rewrite group_name_eq.
Qed.
Lemma subst_close d st n : name n -> subst_tag d st (tx "/F-" ++ n) = (st, if inb n (open_tags st) then tx ")" else bracket (tx "/F-" ++ n)).
Proof.
  intros H. unfold subst_tag.
  destruct (eqb_spec (tx "/F-" ++ n) (tx "HOST")) as [E|N1]; [discriminate|].
  destruct (eqb_spec (tx "/F-" ++ n) (tx "SKIPLINES")) as [E|N2]; [discriminate|].
  assert (D : @dget text text _ (tx "/F-" ++ n) rh4tag = None) by (apply (dget_name ["/"%char] n); [apply H|now right]). rewrite D.
  rewrite cust_close by exact H. reflexivity.
Qed.
Lemma subst_none d st n : ~ tag_with_meaning n -> subst_tag d st n = (st, bracket n).
Proof.
  intros H. unfold subst_tag.
  destruct (eqb_spec n (tx "HOST")) as [->|N1]; [destruct H; left; reflexivity|].
  destruct (eqb_spec n (tx "SKIPLINES")) as [->|N2]; [destruct H; right; left; reflexivity|].
  destruct (dget n rh4tag) as [r|] eqn:E; [destruct H; right; right; left; rewrite standard_eq; congruence|].
  destruct (cust_name n) as [[b m]|] eqn:C; [|reflexivity].
  apply cust_inv in C as [Nm E']. destruct H. do 3 right. exists m. split; [exact Nm|]. destruct b; auto.
Qed.

(** ** The whole text *)
Lemma sub_fuel d : forall f1 f2 st s, (length s <= f1)%nat -> (length s <= f2)%nat -> sub_tags f1 d st s = sub_tags f2 d st s.
Proof.
  induction f1 as [|f1 IH]; intros f2 st s H1 H2.
  - destruct s; [|cbn in H1; lia]. now destruct f2.
  - destruct s as [|c r]; [now destruct f2|]. destruct f2 as [|f2]; [cbn in H2; lia|]. cbn [sub_tags].
    destruct (take_tag (c :: r)) as [[tn rest]|] eqn:E.
    + apply take_tag_inv in E as [E _]. assert (L : length (c :: r) = length ("<"%char :: tn ++ ">"%char :: rest)) by now rewrite E.
      cbn [length] in L, H1, H2. rewrite app_length in L. cbn [length] in L. destruct (subst_tag d st tn) as [st' out]. f_equal. apply IH; lia.
    + cbn [length] in H1, H2. f_equal. apply IH; lia.
Qed.
Definition res (d : text) (st : tags) (s : text) : text := sub_tags (length s) d st s.
Lemma res_tag d st tn rest st' out : take_tag (bracket tn ++ rest) = Some (tn, rest) -> subst_tag d st tn = (st', out) ->
  res d st (bracket tn ++ rest) = out ++ res d st' rest.
Proof.
  intros T S. unfold res. assert (L : (length rest < length (bracket tn ++ rest))%nat).
  { unfold bracket. rewrite !app_length. cbn. lia. }
  destruct (bracket tn ++ rest) as [|c r] eqn:E; [cbn in L; lia|]. cbn [length sub_tags] in *. rewrite T, S. f_equal. apply sub_fuel; lia.
Qed.
Lemma res_char d st c r : take_tag (c :: r) = None -> res d st (c :: r) = c :: res d st r.
Proof. intros T. unfold res. cbn [length sub_tags]. now rewrite T. Qed.
Lemma resolve_res d s : resolve d s = res d (mkTags [] 0) s.
Proof. reflexivity. Qed.

Lemma plain_suffix a t : plain (a ++ t) -> plain t.
Proof. intros H x y ->. apply (H (a ++ x) y). now rewrite app_assoc. Qed.
Lemma res_plain d st : forall n t rest, (length t <= n)%nat -> plain t -> res d st (t ++ rest) = t ++ res d st rest.
Proof.
  induction n as [|n IH]; intros t rest L P.
  - destruct t; [reflexivity|cbn in L; lia].
  - destruct t as [|c t]; [reflexivity|]. cbn [length] in L. cbn [app].
    destruct (take_tag (c :: t ++ rest)) as [[tn r]|] eqn:T.
    + pose proof (take_tag_inv _ _ _ T) as [E F]. injection E as -> E.
      destruct (P [] t eq_refl) as (w & x & y & -> & Fw & Nx & M).
      rewrite <- app_assoc in E. cbn [app] in E. apply first_outside in E as (-> & -> & <-); auto using gt_not_in_tag.
      specialize (M eq_refl).
      assert (Eq : "<"%char :: (tn ++ ">"%char :: y) ++ rest = bracket tn ++ y ++ rest).
      { unfold bracket. change (tx "<") with ["<"%char]. change (tx ">") with [">"%char]. rewrite <- !app_assoc. reflexivity. }
      rewrite Eq in *. erewrite res_tag; [|exact T|apply subst_none, M].
      rewrite IH; [|rewrite app_length in L; cbn [length] in L; lia|]. 
      * unfold bracket. change (tx "<") with ["<"%char]. change (tx ">") with [">"%char]. cbn [app]. rewrite <- !app_assoc. reflexivity.
      * apply (plain_suffix ("<"%char :: tn ++ [">"%char])). cbn [app]. rewrite <- app_assoc. exact P.
    + rewrite res_char by exact T. f_equal. apply IH; [lia|]. apply (plain_suffix [c]). exact P.
Qed.

Lemma take_host rest : take_tag (bracket (tx "HOST") ++ rest) = Some (tx "HOST", rest).
Proof. apply (take_bracket [] (tx "HOST") []); [now left|discriminate|repeat constructor|now left]. Qed.
Lemma take_skip rest : take_tag (bracket (tx "SKIPLINES") ++ rest) = Some (tx "SKIPLINES", rest).
Proof. apply (take_bracket [] (tx "SKIPLINES") []); [now left|discriminate|repeat constructor|now left]. Qed.
Lemma take_std n rest : standard n <> None -> take_tag (bracket n ++ rest) = Some (n, rest).
Proof.
  intros H. rewrite standard_eq in H. apply tx_keys in H. cbn [rh4tag dkeys map fst In] in H.
  assert (Go : forall w s, w <> [] -> forallb tag_char w = true -> perhaps_slash s -> take_tag (bracket (w ++ s) ++ rest) = Some (w ++ s, rest)).
  { intros w s Nw Fw Ps. apply (take_bracket [] w s); [now left|exact Nw|now apply Forall_forall, forallb_forall|exact Ps]. }
  repeat (destruct H as [<- | H]; [first
    [ apply (Go (tx "IP4") []); [discriminate|reflexivity|now left]
    | apply (Go (tx "F-IP4") ["/"%char]); [discriminate|reflexivity|now right]
    | apply (Go (tx "IP6") []); [discriminate|reflexivity|now left]
    | apply (Go (tx "F-IP6") ["/"%char]); [discriminate|reflexivity|now right]
    | apply (Go (tx "ADDR") []); [discriminate|reflexivity|now left]
    | apply (Go (tx "F-ADDR") ["/"%char]); [discriminate|reflexivity|now right]
    | apply (Go (tx "CIDR") []); [discriminate|reflexivity|now left]
    | apply (Go (tx "F-CIDR") ["/"%char]); [discriminate|reflexivity|now right]
    | apply (Go (tx "SUBNET") []); [discriminate|reflexivity|now left]
    | apply (Go (tx "F-SUBNET") ["/"%char]); [discriminate|reflexivity|now right]
    | apply (Go (tx "DNS") []); [discriminate|reflexivity|now left]
    | apply (Go (tx "F-DNS") ["/"%char]); [discriminate|reflexivity|now right]
    | apply (Go (tx "F-ID") ["/"%char]); [discriminate|reflexivity|now right]
    | apply (Go (tx "F-PORT") ["/"%char]); [discriminate|reflexivity|now right] ]|]). contradiction.
Qed.
Lemma name_tags n : name n -> Forall (fun c => tag_char c = true) (tx "F-" ++ n).
Proof. intros [_ F]. apply Forall_app. split; [repeat constructor|]. eapply Forall_impl; [|exact F]. exact name_tag. Qed.
Lemma take_open n rest : name n -> take_tag (bracket (tx "F-" ++ n) ++ rest) = Some (tx "F-" ++ n, rest).
Proof.
  intros H. pose proof (take_bracket [] (tx "F-" ++ n) [] rest) as T. rewrite app_nil_r in T. apply T; [now left|discriminate|now apply name_tags|now left].
Qed.
Lemma take_close n rest : name n -> take_tag (bracket (tx "/F-" ++ n) ++ rest) = Some (tx "/F-" ++ n, rest).
Proof.
  intros H. pose proof (take_bracket ["/"%char] (tx "F-" ++ n) [] rest) as T. rewrite app_nil_r in T. apply T; [now right|discriminate|now apply name_tags|now left].
Qed.

Fixpoint push (p : pattern) (l : list text) : list text :=
  match p with
  | PEnd => l
  | PText _ p | PHost p | PSkip p | PStd _ p | PLoose _ p => push p l
  | PGroup n b p => push p (push b (n :: l))
  end.
Lemma push_In p : forall l x, In x (push p l) <-> In x (opened p) \/ In x l.
Proof.
  induction p as [|t p IH|p IH|p IH|n p IH|n b IHb p IH|n p IH]; intros l x; cbn [push opened]; try apply IH; [cbn; tauto|].
  rewrite IH, IHb. cbn [In]. rewrite in_app_iff. tauto.
Qed.
Lemma res_pattern d : forall p o st rest, proper o p -> (forall x, In x (open_tags st) <-> In x o) ->
  res d st (written p ++ rest) = meaning d (nl st) p ++ res d (mkTags (push p (open_tags st)) (nl st + skips p)) rest.
Proof.
  induction p as [|t p IH|p IH|p IH|n p IH|n b IHb p IH|n p IH]; intros o st rest P O; cbn [written meaning push skips proper] in *.
  - rewrite Z.add_0_r. destruct st. reflexivity.
  - destruct P as [Pt P]. rewrite <- !app_assoc, (res_plain d st (length t)) by auto. f_equal. now apply (IH o).
  - rewrite <- !app_assoc. erewrite res_tag; [|apply take_host|apply subst_host]. f_equal. now apply (IH o).
  - rewrite <- !app_assoc. erewrite res_tag; [|apply take_skip|apply subst_skip]. rewrite <- !app_assoc. do 3 f_equal.
    rewrite (IH o); [|exact P|exact O]. cbn [open_tags nl]. now rewrite <- Z.add_assoc.
  - destruct P as [Pn P]. destruct (standard n) as [r|] eqn:E; [|congruence]. rewrite <- !app_assoc.
    erewrite res_tag; [|apply take_std; congruence|apply subst_std, E]. f_equal. now apply (IH o).
  - destruct P as (Pn & Pb & P). rewrite <- !app_assoc. erewrite res_tag; [|apply take_open, Pn|apply subst_open, Pn].
    rewrite <- !app_assoc. do 3 f_equal.
    rewrite (IHb (n :: o)); [|exact Pb|intros x; cbn [open_tags In]; now rewrite O]. cbn [open_tags nl]. f_equal.
    assert (I : In n (push b (n :: open_tags st))) by (apply push_In; right; now left).
    erewrite res_tag; [|apply take_close, Pn|apply subst_close, Pn]. cbn [open_tags]. apply inb_In in I. rewrite I. f_equal.
    rewrite (IH (n :: opened b ++ o)); [|exact P|].
    + cbn [open_tags nl]. now rewrite Z.add_assoc.
    + intros x. cbn [open_tags]. rewrite push_In. cbn [In]. rewrite in_app_iff, O. tauto.
  - destruct P as (Pn & No & P). rewrite <- !app_assoc. erewrite res_tag; [|apply take_close, Pn|apply subst_close, Pn].
    destruct (inb n (open_tags st)) eqn:I; [apply inb_In, O in I; contradiction|]. f_equal. now apply (IH o).
Qed.
Lemma resolve_pattern d p : proper [] p -> resolve d (written p) = meaning d 0 p.
Proof.
  intros P. rewrite resolve_res. pose proof (res_pattern d p [] (mkTags [] 0) [] P) as H. rewrite !app_nil_r in H. cbn [open_tags nl] in H.
  now rewrite H by tauto.
Qed.
