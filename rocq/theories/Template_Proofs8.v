(** From the text of a pattern to the template. *)
From Verif Require Import Base Text Template_Model Template_Spec Template_Spec2 Template_Proofs.
Local Open Scope string_scope. Local Open Scope list_scope. Local Open Scope nat_scope.

Lemma aeqb_true (a b : ascii) : eqb a b = true -> a = b.
Proof. apply eqb_eq. Qed.
Lemma aeqb_neq (a b : ascii) : a <> b -> eqb a b = false.
Proof. intros N. destruct (eqb a b) eqn:E; [|reflexivity]. now apply aeqb_true in E. Qed.
Lemma parse_key1 k t r : k <> "%"%char -> key_of [k] = Some t -> parse ("%"%char :: k :: r) = cons_item (Tok t) (parse r).
Proof. intros N K. cbn [parse]. replace (eqb "%"%char "%"%char) with true by reflexivity. now rewrite (aeqb_neq _ _ N), K. Qed.
Lemma parse_key3 k1 k2 k3 t r : k1 <> "%"%char -> key_of [k1] = None -> key_of [k1; k2; k3] = Some t ->
  parse ("%"%char :: k1 :: k2 :: k3 :: r) = cons_item (Tok t) (parse r).
Proof. intros N K K3. cbn [parse]. replace (eqb "%"%char "%"%char) with true by reflexivity. now rewrite (aeqb_neq _ _ N), K, K3. Qed.

Lemma lit_cases c : c = "%"%char /\ item_text (Lit c) = tx "%%" \/
  c <> "%"%char /\ In c (tx "\.^$*+?(){}[]|") /\ item_text (Lit c) = ["\"%char; c] \/
  c <> "%"%char /\ ~ In c (tx "\.^$*+?(){}[]|") /\ item_text (Lit c) = [c].
Proof.
  unfold item_text. destruct (ascii_dec c "%") as [E|E]; [now left|right].
  destruct (in_dec ascii_dec c (tx "\.^$*+?(){}[]|")) as [F|F]; [left|right]; now repeat split.
Qed.
Lemma parse_item i r : (i <> Lit newline) -> parse (item_text i ++ r) = cons_item i (parse r).
Proof.
  intros N. destruct i as [c| |t].
  - destruct (lit_cases c) as [[-> ->]|[(E & F & ->)|(E & F & ->)]].
    + reflexivity.
    + cbn in F. repeat (destruct F as [<-|F]; [reflexivity|]). destruct F.
    + cbn [app parse]. rewrite (aeqb_neq c "%" E). cbn in F.
      rewrite (aeqb_neq c "\") by (intros ->; tauto). rewrite (aeqb_neq c ".") by (intros ->; tauto).
      destruct (special c) eqn:P; [|reflexivity]. exfalso. unfold special in P. apply inb_In in P.
      destruct P as [P|P]; [apply N; congruence|]. now apply F.
  - reflexivity.
  - destruct t; cbn [item_text letters]; first [apply parse_key1; [discriminate|vm_compute; reflexivity] | apply parse_key3; [discriminate|vm_compute; reflexivity|vm_compute; reflexivity]].
Qed.
Lemma parse_pattern l : ~ In (Lit newline) l -> parse (pattern_text l) = Some l.
Proof.
  induction l as [|i l IH]; intros N; [reflexivity|]. unfold pattern_text in *. cbn [map concat].
  rewrite parse_item by (intros ->; apply N; now left). rewrite IH by (intros I1; apply N; now right). reflexivity.
Qed.

Definition namish (t : token) : bool := match t with Ta | TA | Tb | TB | Tp => true | _ => false end.
Fixpoint named (after : bool) (l : list item) : bool :=
  match l with
  | [] => false
  | Tok t :: r => (negb after && namish t) || named false r
  | Lit c :: r => named (eqb c "%"%char) r
  | Any :: r => named false r
  end.
Definition pct (p : option ascii) : bool := match p with Some c => eqb c "%"%char | None => false end.
Lemma alpha_cons p c r : alpha p (c :: r) =
  (eqb c "%"%char && negb (pct p) && match r with k :: _ => inb k (tx "aAbBpc") | [] => false end) || alpha (Some c) r.
Proof. destruct p; reflexivity. Qed.
Lemma alpha_item i p r : (forall c, i = Lit c -> eqb c "%"%char = false -> True) ->
  exists q, alpha p (item_text i ++ r) = (match i with Tok t => negb (pct p) && namish t | _ => false end) || alpha q r
            /\ pct q = match i with Lit c => eqb c "%"%char | _ => false end.
Proof.
  intros _. destruct i as [c| |t].
  - destruct (lit_cases c) as [[-> ->]|[(E & F & ->)|(E & F & ->)]].
    + exists (Some "%"%char). split; [|reflexivity]. cbn [tx app list_ascii_of_string]. rewrite !alpha_cons.
      replace (inb "%"%char (tx "aAbBpc")) with false by reflexivity. cbn [pct]. rewrite andb_false_r.
      replace (eqb "%"%char "%"%char) with true by reflexivity. reflexivity.
    + exists (Some c). split; [|cbn [pct]; reflexivity]. cbn [app]. rewrite !alpha_cons, (aeqb_neq c "%" E). reflexivity.
    + exists (Some c). split; [|cbn [pct]; reflexivity]. cbn [app]. rewrite !alpha_cons, (aeqb_neq c "%" E). reflexivity.
  - exists (Some "."%char). split; reflexivity.
  - destruct t; cbn [item_text letters tx app list_ascii_of_string]; rewrite !alpha_cons; (eexists; split; [|shelve]);
      destruct (pct p); reflexivity.
    Unshelve. all: try reflexivity.
Qed.
Lemma alpha_pattern l : forall p r, (forall q, alpha q r = false) -> alpha p (pattern_text l ++ r) = named (pct p) l.
Proof.
  induction l as [|i l IH]; intros p r R; [apply R|]. unfold pattern_text. cbn [map concat]. rewrite <- app_assoc.
  destruct (alpha_item i p (pattern_text l ++ r) ltac:(trivial)) as (q & A & Q). unfold pattern_text in A at 1. rewrite A, (IH q r R), Q.
  destruct i; reflexivity.
Qed.
Lemma namish_iff t : namish t = true <-> In t [Ta; TA; Tb; TB; Tp].
Proof. destruct t; cbn; intuition congruence. Qed.
Lemma named_iff l : forall a, named a l = true <->
  exists b t r, l = b ++ Tok t :: r /\ In t [Ta; TA; Tb; TB; Tp] /\ match b with [] => a = false | _ => forall b', b <> b' ++ [Lit "%"%char] end.
Proof.
  induction l as [|i l IH]; intros a.
  - cbn. split; [discriminate|]. intros (b & t & r & H & _). destruct b; discriminate.
  - assert (ST : forall a', (named a' l = true /\ a' = match i with Lit c => eqb c "%"%char | _ => false end) ->
       exists b t r, i :: l = b ++ Tok t :: r /\ In t [Ta; TA; Tb; TB; Tp] /\ match b with [] => a = false | _ => forall b', b <> b' ++ [Lit "%"%char] end).
    { intros a' [H A]. apply IH in H as (b & t & r & -> & N & P). exists (i :: b), t, r. split; [reflexivity|]. split; [exact N|].
      intros b' E. destruct b as [|x b].
      - destruct b' as [|y [|z b']]; cbn in E; try discriminate. injection E as ->. rewrite P in A. discriminate A.
      - destruct b' as [|y b']; cbn in E; [discriminate|]. injection E as -> E. now apply (P b'). }
    assert (BK : forall b t r, i :: l = b ++ Tok t :: r -> In t [Ta; TA; Tb; TB; Tp] -> b <> [] -> (forall b', b <> b' ++ [Lit "%"%char]) ->
        named (match i with Lit c => eqb c "%"%char | _ => false end) l = true).
    { intros b t r E N B P. destruct b as [|x b]; [congruence|]. cbn in E. injection E as -> ->. apply IH. exists b, t, r. split; [reflexivity|]. split; [exact N|].
      destruct b as [|y b].
      - destruct x as [c| |t']; try reflexivity. apply aeqb_neq. intros ->. now apply (P []).
      - intros b' E. apply (P (x :: b')). cbn. now rewrite E. }
    split.
    + intros H. destruct i as [c| |t]; cbn [named] in H; try (now apply (ST _ (conj H eq_refl))).
      apply orb_true_iff in H as [H|H]; [|now apply (ST _ (conj H eq_refl))]. apply andb_true_iff in H as [A H]. exists [], t, l.
      split; [reflexivity|]. split; [now apply namish_iff|]. now destruct a.
    + intros (b & t & r & E & N & P). destruct b as [|x b].
      * cbn in E. injection E as -> ->. subst a. cbn [named]. now rewrite (proj2 (namish_iff t) N).
      * assert (G := BK _ t r E N ltac:(discriminate) P). destruct i; cbn [named]; rewrite ?G, ?orb_true_r; try reflexivity; exact G.
Qed.
Lemma named_spec l : named false l = true <-> has_names l.
Proof.
  rewrite named_iff. unfold has_names. split; intros (b & t & r & E & N & P); exists b, t, r; split; try exact E; split; try exact N; destruct b; try exact P; try reflexivity.
  intros b' F. destruct b'; discriminate.
Qed.

Lemma first_shape l : l <> [] -> plain_front l -> exists c r, pattern_text l = c :: r /\ is_space c = false /\ c <> "^"%char /\ c <> "*"%char /\ c <> "{"%char.
Proof.
  destruct l as [|i l]; [congruence|]. intros _ P. unfold pattern_text. cbn [map concat]. unfold plain_front in P. cbn in P. destruct i as [c| |t].
  - destruct (lit_cases c) as [[-> ->]|[(E & F & ->)|(E & F & ->)]].
    + exists "%"%char. eexists. split; [reflexivity|]. repeat split; try discriminate; reflexivity.
    + exists "\"%char. eexists. split; [reflexivity|]. repeat split; try discriminate; reflexivity.
    + exists c. eexists. split; [reflexivity|]. split; [unfold blank in P; now destruct (is_space c)|]. cbn in F. repeat split; intros ->; tauto.
  - exists "."%char. eexists. split; [reflexivity|]. repeat split; try discriminate; reflexivity.
  - exists "%"%char. eexists. split; [reflexivity|]. repeat split; try discriminate; reflexivity.
Qed.
Lemma last_shape l : l <> [] -> plain_back l -> exists c r, rev (pattern_text l) = c :: r /\ is_space c = false /\ c <> "$"%char /\ c <> "\"%char /\
  (c = "*"%char -> exists r', r = "\"%char :: r').
Proof.
  intros N. destruct (exists_last N) as (l' & i & ->). intros P. unfold pattern_text. rewrite map_app, concat_app, rev_app_distr. cbn [map concat]. rewrite app_nil_r.
  destruct i as [c| |t].
  - destruct (P l' c eq_refl) as (B & D & K). unfold blank in B. destruct (lit_cases c) as [[-> ->]|[(E & F & ->)|(E & F & ->)]].
    + exists "%"%char. eexists. split; [reflexivity|]. repeat split; try discriminate; reflexivity.
    + exists c. eexists. split; [reflexivity|]. split; [now destruct (is_space c)|]. split; [exact D|]. split; [exact K|]. intros _. eexists. reflexivity.
    + exists c. eexists. split; [reflexivity|]. split; [now destruct (is_space c)|]. split; [exact D|]. split; [exact K|]. intros ->. exfalso. apply F. cbn. tauto.
  - exists "."%char. eexists. split; [reflexivity|]. repeat split; try discriminate; reflexivity.
  - destruct t; (eexists; eexists; split; [reflexivity|]; repeat split; try discriminate; reflexivity).
Qed.
Lemma lstrip_id c r : is_space c = false -> lstrip (c :: r) = c :: r.
Proof. intros H. cbn. now rewrite H. Qed.
Lemma rstrip_id s c r : rev s = c :: r -> is_space c = false -> rstrip s = s.
Proof. intros E H. unfold rstrip. rewrite E, (lstrip_id c r H), <- E. apply rev_involutive. Qed.
Lemma prefixed_no a p c r : a <> c -> prefixed (a :: p) (c :: r) = None.
Proof. intros N. cbn. now rewrite (aeqb_neq _ _ N). Qed.
Lemma distinct_nodup l : NoDup l -> distinct l = true.
Proof.
  induction 1 as [|x l N _ IH]; [reflexivity|]. cbn. rewrite IH, andb_true_r. apply negb_true_iff. destruct (inb x l) eqn:E; [|reflexivity].
  apply inb_In in E. contradiction.
Qed.
Lemma names_parts l : names l = parts_of l.
Proof. unfold names, parts_of. induction l as [|i l IH]; [reflexivity|]. cbn. rewrite IH. destruct i as [| |t]; try reflexivity. Qed.

Definition own (e : bool) := if e then EWord else ENone.
Lemma back_pattern l k e : l <> [] -> plain_back l ->
  back e (pattern_text l ++ back_text k) = (match k with KDollar => EDollar | KStars => ENone | KNone => own e end, pattern_text l).
Proof.
  intros N P. destruct (last_shape l N P) as (c & r & E & S & D & B & T). assert (PT : pattern_text l = rev (c :: r)) by now rewrite <- E, rev_involutive. unfold back, own. destruct k; cbn [back_text tx list_ascii_of_string].
  - rewrite app_nil_r. rewrite E. destruct (ascii_dec c "*") as [->|M].
    + destruct (T eq_refl) as (r' & ->). reflexivity.
    + destruct c as [[] [] [] [] [] [] [] []]; try reflexivity; congruence.
  - rewrite rev_app_distr. cbn [rev app]. rewrite E, PT.
    destruct c as [[] [] [] [] [] [] [] []]; try reflexivity; congruence.
  - rewrite rev_app_distr. cbn [rev app]. rewrite E, PT.
    destruct c as [[] [] [] [] [] [] [] []]; try reflexivity; congruence.
Qed.
Definition inner (f : mark_front) : Prop := match f with FNone | FCaret | FStars => True | _ => False end.
Lemma front_pattern f l w x : inner f -> l <> [] -> plain_front l -> front w (front_text f ++ pattern_text l ++ x) = (begins f w, pattern_text l ++ x).
Proof.
  intros I1 N P. destruct (first_shape l N P) as (c & r & E & S & C1 & C2 & C3). unfold front. destruct f; try destruct I1.
  - rewrite E. cbn [front_text tx list_ascii_of_string app]. rewrite !prefixed_no by congruence. reflexivity.
  - reflexivity.
  - reflexivity.
Qed.
Lemma back_alpha k q : alpha q (back_text k) = false.
Proof. destruct k, q as [c|]; reflexivity. Qed.
Lemma alpha_front f p x : alpha p (front_text f ++ x) = alpha (match f with FNone => p | FLine | FUnbound => Some "}"%char | FCaret => Some "^"%char | FStars => Some "*"%char end) x.
Proof. destruct f; reflexivity. Qed.
Lemma whole_front f l x : inner f -> l <> [] -> plain_front l -> lstrip (front_text f ++ pattern_text l ++ x) = front_text f ++ pattern_text l ++ x.
Proof.
  intros I1 N P. destruct (first_shape l N P) as (c & r & E & S & _). destruct f; try destruct I1; try reflexivity. rewrite E. apply lstrip_id. exact S.
Qed.
Lemma whole_back y l k : l <> [] -> plain_back l -> rstrip (y ++ pattern_text l ++ back_text k) = y ++ pattern_text l ++ back_text k.
Proof.
  intros N P. destruct (last_shape l N P) as (c & r & E & S & _). destruct k.
  - apply (rstrip_id _ c (r ++ rev y)); [|exact S]. cbn [back_text tx list_ascii_of_string]. now rewrite app_nil_r, rev_app_distr, E.
  - apply (rstrip_id _ "$"%char (rev (pattern_text l) ++ rev y)); [|reflexivity]. now rewrite !rev_app_distr.
  - apply (rstrip_id _ "*"%char ("*"%char :: rev (pattern_text l) ++ rev y)); [|reflexivity]. now rewrite !rev_app_distr.
Qed.
Lemma if_same {A} (b : bool) (x : A) : (if b then x else x) = x.
Proof. now destruct b. Qed.
Lemma set_regex_pattern f l k w e : inner f -> l <> [] -> plain_front l -> plain_back l -> ~ In (Lit newline) l -> NoDup (parts_of l) ->
  set_regex (front_text f ++ pattern_text l ++ back_text k) w e =
  Template (mkT (named false l) (begins f w) l (match k with KDollar => EDollar | KStars => ENone | KNone => own e end)).
Proof.
  intros I1 N PF PB NL ND. unfold set_regex. cbv zeta. rewrite alpha_front, (alpha_pattern l _ _ (back_alpha k)).
  replace (pct (match f with FNone => None | FLine | FUnbound => Some "}"%char | FCaret => Some "^"%char | FStars => Some "*"%char end)) with false by now destruct f.
  rewrite (whole_front f l (back_text k) I1 N PF).
  rewrite !if_same.
  rewrite (whole_back (front_text f) l k N PB), (front_pattern f l w (back_text k) I1 N PF), (back_pattern l k e N PB), (parse_pattern l NL).
  destruct l as [|i l']; [congruence|]. set (l := i :: l') in *.
  replace (match i with Tok t => blank_before t | _ => false end) with false.
  2:{ destruct i as [| |t]; try reflexivity. unfold plain_front in PF. cbn in PF. destruct t; try reflexivity; exfalso; apply PF; tauto. }
  rewrite andb_false_r. cbn [andb orb].
  replace (match last l Any with Lit c => eqb c "$"%char | _ => false end) with false.
  2:{ destruct (exists_last N) as (r & j & E). rewrite E, last_last. destruct j as [c| |]; try reflexivity. symmetry. apply aeqb_neq. intros ->.
      destruct (PB r _ E) as (_ & D & _). congruence. }
  cbn [andb orb]. rewrite names_parts, (distinct_nodup _ ND). reflexivity.
Qed.
Lemma set_pattern_text f l k w e : (f = FLine -> w <> Anywhere) -> l <> [] -> plain_front l -> plain_back l -> ~ In (Lit newline) l -> NoDup (parts_of l) ->
  set_pattern (front_text f ++ pattern_text l ++ back_text k) w e = Template (mkT (named false l) (begins f w) l (ends f k e)).
Proof.
  intros FL N PF PB NL ND. destruct (first_shape l N PF) as (c & r & E & S & C1 & C2 & C3). unfold set_pattern.
  assert (G := fun f w e I1 => set_regex_pattern f l k w e I1 N PF PB NL ND). destruct f.
  - specialize (G FNone w e I). revert G. cbn [front_text tx list_ascii_of_string app]. rewrite E. cbn [app]. rewrite prefixed_no by congruence.
    intros G. destruct w; [rewrite prefixed_no by congruence|rewrite prefixed_no by congruence|]; rewrite G; destruct k; reflexivity.
  - specialize (G FNone AtStart e I). revert G. cbn [front_text tx list_ascii_of_string app]. 
    intros G. destruct w; [| |now destruct (FL eq_refl)]; cbn [prefixed]; change (set_regex (pattern_text l ++ back_text k) AtStart e = Template (mkT (named false l) BStart l (ends FLine k e))); rewrite G; destruct k; reflexivity.
  - specialize (G FNone Anywhere false I). change (set_regex (pattern_text l ++ back_text k) Anywhere false = Template (mkT (named false l) BNone l (ends FUnbound k e))).
    cbn [front_text tx list_ascii_of_string app] in G. rewrite G. destruct k; reflexivity.
  - specialize (G FCaret w e I). revert G. cbn [front_text tx list_ascii_of_string app]. rewrite !prefixed_no by discriminate.
    intros G. destruct w; rewrite G; destruct k; reflexivity.
  - specialize (G FStars w e I). revert G. cbn [front_text tx list_ascii_of_string app]. rewrite !prefixed_no by discriminate.
    intros G. destruct w; rewrite G; destruct k; reflexivity.
Qed.
Lemma name_ignore l s : name false l s -> name true l s.
Proof. intros (a & I1 & ->). exists a. split; [exact I1|]. unfold Strptime_Spec.same_letters. induction (tx a); constructor; auto. Qed.
Lemma field_ignore y t s : field_text y false t s -> field_text y true t s.
Proof. destruct t; cbn [field_text]; try exact (fun x => x); try apply name_ignore. unfold offset_text. intros [(a & I1 & ->)|H]; [left; exists a; now split|right; exact H]. Qed.
Lemma wrote_ignore y l s g : wrote y false l s g -> wrote y true l s g.
Proof.
  induction 1 as [|c x l s g C W IH|x l s g C W IH|t b v l s g B F W IH]; constructor; try assumption.
  - destruct C as [-> |[D _]]; [now left|discriminate].
  - now apply field_ignore.
Qed.
