(** Proofs about tags: recursive substitution gives the full expansion. *)
From Verif Require Import Base Text Tags_Model Tags_Spec Tags_Proofs Tags_Proofs2.
From Coq Require Import ZifyBool ZifyNat.

(** ** reading texts into tokens *)
Lemma toks_text_app a b : toks_text (a ++ b) = toks_text a ++ toks_text b.
Proof. unfold toks_text. now rewrite map_app, concat_app. Qed.
Lemma toks_text_cons t l : toks_text (t :: l) = tok_text t ++ toks_text l.
Proof. reflexivity. Qed.
Lemma tag_at_char c s : c <> lt -> tag_at (c :: s) = None.
Proof. intros N. unfold tag_at. destruct (eqb_spec c "<"%char) as [->|]; [now destruct N|reflexivity]. Qed.
Lemma tag_at_less s : tag_at (lt :: sp :: s) = None.
Proof. reflexivity. Qed.
Lemma tag_at_tag n s : tag_name n -> tag_at (lt :: n ++ gt :: s) = Some (n, s).
Proof. intros H. apply tag_at_spec. auto. Qed.
Lemma bracket_app n s : bracket n ++ s = lt :: n ++ gt :: s.
Proof. unfold bracket. cbn. now rewrite <- app_assoc. Qed.

Fixpoint first_tag (l : list tok) : option (list tok * text * list tok) :=
  match l with
  | [] => None
  | TTag n :: r => Some ([], n, r)
  | t :: r => match first_tag r with Some (a, n, r') => Some (t :: a, n, r') | None => None end
  end.
Lemma search_eq c s : search (c :: s) = match tag_at (c :: s) with
  | Some (n, r) => Some ([], n, r)
  | None => match search s with Some (b, n, r') => Some (c :: b, n, r') | None => None end end.
Proof. reflexivity. Qed.
Lemma search_toks l : Forall tok_ok l ->
  search (toks_text l) = match first_tag l with Some (a, n, r) => Some (toks_text a, n, toks_text r) | None => None end.
Proof.
  induction 1 as [|t l Ht Hl IH]; [reflexivity|]. rewrite toks_text_cons. destruct t as [c| |n]; cbn [tok_ok] in Ht; cbn [tok_text first_tag app].
  - rewrite search_eq, tag_at_char by exact Ht. rewrite IH. destruct (first_tag l) as [[[a n] r]|]; reflexivity.
  - rewrite search_eq, tag_at_less, search_eq, tag_at_char by discriminate. rewrite IH. destruct (first_tag l) as [[[a n] r]|]; reflexivity.
  - rewrite <- app_assoc. cbn [app]. rewrite search_eq, tag_at_tag by exact Ht. reflexivity.
Qed.
Lemma first_tag_some l a n r : first_tag l = Some (a, n, r) -> l = a ++ TTag n :: r /\ (forall m, ~ In (TTag m) a).
Proof.
  revert a n r. induction l as [|t l IH]; intros a n r H; [discriminate|]. destruct t as [c| |m]; cbn [first_tag] in H.
  1-2: destruct (first_tag l) as [[[a' n'] r']|]; [|discriminate]; injection H as <- <- <-; destruct (IH _ _ _ eq_refl) as (-> & N);
       split; [reflexivity|]; intros m [E|I]; [discriminate|now apply (N m)].
  injection H as <- <- <-. split; [reflexivity|]. intros m' [].
Qed.
Lemma first_tag_none l : first_tag l = None -> forall m, ~ In (TTag m) l.
Proof.
  induction l as [|t l IH]; intros H m; [intros []|]. destruct t as [c| |n]; cbn [first_tag] in H; [| |discriminate].
  1-2: destruct (first_tag l) as [[[a' n'] r']|]; [discriminate|]; intros [E|I]; [discriminate|now apply (IH eq_refl m)].
Qed.

(** replacing a tag *)
Definition put (n : text) (d : list tok) (t : tok) : list tok := match t with TTag m => if eqb m n then d else [t] | _ => [t] end.
Lemma replace_eq k p r c s : replace_all (S k) p r (c :: s) = match prefix_of p (c :: s) with Some rest => r ++ replace_all k p r rest | None => c :: replace_all k p r s end.
Proof. reflexivity. Qed.
Lemma prefix_none p s : (forall r, s <> p ++ r) -> prefix_of p s = None.
Proof. intros H. destruct (prefix_of p s) as [r|] eqn:E; [|reflexivity]. apply prefix_of_spec in E. now destruct (H r). Qed.
Lemma replace_walk n r : forall w k s, (length w <= k)%nat -> ~ In lt w ->
  replace_all k (bracket n) r (w ++ s) = w ++ replace_all (k - length w) (bracket n) r s.
Proof.
  induction w as [|c w IH]; intros k s L N; cbn [app length]; [now rewrite Nat.sub_0_r|].
  destruct k as [|k]; [cbn in L; lia|]. rewrite replace_eq, prefix_none.
  - rewrite IH; [reflexivity|cbn in L; lia|intros I; apply N; now right].
  - intros r' E. injection E as -> _. apply N. now left.
Qed.
Lemma replace_toks n d l : tag_name n -> Forall tok_ok l -> forall k, (length (toks_text l) <= k)%nat ->
  replace_all k (bracket n) (toks_text d) (toks_text l) = toks_text (flat_map (put n d) l).
Proof.
  intros Hn. induction 1 as [|t l Ht Hl IH]; intros k L.
  { cbn. destruct k; reflexivity. }
  rewrite toks_text_cons in L |- *. rewrite app_length in L. cbn [flat_map]. rewrite toks_text_app. destruct t as [c| |m]; cbn [tok_ok] in Ht; cbn [tok_text put] in *.
  - rewrite replace_walk; [|cbn in *; lia|intros [I|[]]; now apply Ht]. rewrite IH by (cbn in *; lia). reflexivity.
  - destruct k as [|k]; [cbn in L; lia|]. cbn [app]. rewrite replace_eq, prefix_none.
    + change (sp :: toks_text l) with ([sp] ++ toks_text l). rewrite replace_walk; [|cbn in *; lia|intros [E|[]]; discriminate].
      rewrite IH by (cbn in *; lia). reflexivity.
    + intros r E. rewrite bracket_app in E. injection E as E. destruct Hn as (N1 & N2 & _). destruct n as [|c n]; [congruence|].
      injection E as <- _. apply N2. now left.
  - destruct k as [|k]; [cbn in L; lia|]. cbn [app length] in L |- *. rewrite <- app_assoc. cbn [app]. rewrite replace_eq. destruct (eqb_spec m n) as [->|N].
    + rewrite (proj2 (prefix_of_spec _ _ (toks_text l))) by (rewrite bracket_app; reflexivity).
      rewrite IH by (rewrite app_length in L; cbn in *; lia). reflexivity.
    + rewrite prefix_none.
      * replace (m ++ gt :: toks_text l) with ((m ++ [gt]) ++ toks_text l) by (rewrite <- app_assoc; reflexivity).
        rewrite replace_walk.
        -- rewrite IH by lia. rewrite toks_text_cons. cbn [tok_text toks_text map concat]. rewrite !app_nil_r. cbn. reflexivity.
        -- lia.
        -- rewrite in_app_iff. intros [I|[I|[]]]; [|discriminate]. exact (proj1 (proj2 (proj2 Ht)) I).
      * intros r E. rewrite bracket_app in E. apply N.
        exact (proj1 (parsed_tag_unique [lt] m (toks_text l) n r (tag_no_gt m Ht) (tag_no_gt n Hn) E)).
Qed.
Lemma put_ok n d l : Forall tok_ok d -> Forall tok_ok l -> Forall tok_ok (flat_map (put n d) l).
Proof.
  intros Hd. induction 1 as [|t l Ht Hl IH]; [constructor|]. cbn [flat_map]. apply Forall_app. split; [|exact IH].
  destruct t as [c| |m]; cbn [put]; try (constructor; auto). destruct (eqb m n); [exact Hd|constructor; auto].
Qed.
Lemma put_none n d l : ~ In (TTag n) l -> flat_map (put n d) l = l.
Proof.
  induction l as [|t l IH]; intros N; [reflexivity|]. cbn [flat_map]. rewrite IH by (intros I; apply N; now right).
  destruct t as [c| |m]; try reflexivity. cbn [put]. destruct (eqb_spec m n) as [->|]; [destruct N; now left|reflexivity].
Qed.

(** the reading is unique *)
Lemma tok_text_ne t : tok_text t <> [].
Proof. destruct t; discriminate. Qed.
Lemma toks_unique a : Forall tok_ok a -> forall b, Forall tok_ok b -> toks_text a = toks_text b -> a = b.
Proof.
  induction 1 as [|t a Ht Ha IH]; intros b Hb E.
  - destruct b as [|u b]; [reflexivity|]. rewrite toks_text_cons in E. destruct (tok_text u) eqn:U; [now apply tok_text_ne in U|discriminate].
  - destruct Hb as [|u b Hu Hb]; [rewrite toks_text_cons in E; destruct (tok_text t) eqn:U; [now apply tok_text_ne in U|discriminate]|].
    rewrite !toks_text_cons in E.
    destruct t as [c| |n], u as [c'| |n']; cbn [tok_ok tok_text app] in *.
    + injection E as -> E. f_equal; auto.
    + injection E as -> _. now destruct Ht.
    + injection E as -> _. now destruct Ht.
    + injection E as <- _. now destruct Hu.
    + injection E as E. f_equal; auto.
    + rewrite <- app_assoc in E. injection E as E. destruct Hu as (N1 & N2 & _). destruct n'; [congruence|]. injection E as <- _. destruct N2. now left.
    + injection E as <- _. now destruct Hu.
    + rewrite <- app_assoc in E. injection E as E. destruct Ht as (N1 & N2 & _). destruct n; [congruence|]. injection E as -> _. destruct N2. now left.
    + rewrite <- !app_assoc in E. cbn [app] in E.
      destruct (parsed_tag_unique [lt] n (toks_text a) n' (toks_text b)) as (-> & E2); [apply Ht|apply Hu|exact E|]. f_equal; auto.
Qed.

(** ** expansions *)
Section Exp.
Context (def : text -> option text).
Notation expands := (expands def).
Definition final (l : list tok) : Prop := forall n, In (TTag n) l -> def n = None.
Lemma expands_final l : final l -> expands l l.
Proof.
  induction l as [|t l IH]; intros F; [constructor|]. apply e_keep.
  - intros n ->. apply F. now left.
  - apply IH. intros n I. apply F. now right.
Qed.
Lemma expands_result l e : expands l e -> final e.
Proof.
  induction 1 as [|t l l' Ht H IH|n v d d' l l' Hn Hd Hv H1 IH1 H2 IH2]; intros m I.
  - destruct I.
  - destruct I as [->|I]; [now apply Ht|now apply IH].
  - apply in_app_or in I. destruct I as [I|I]; [now apply IH1|now apply IH2].
Qed.
Lemma expands_ok l e : expands l e -> Forall tok_ok l -> Forall tok_ok e.
Proof.
  induction 1 as [|t l l' Ht H IH|n v d d' l l' Hn Hd Hv H1 IH1 H2 IH2]; intros F; inversion F; subst; auto. apply Forall_app. auto.
Qed.
Lemma expands_app a b e1 e2 : expands a e1 -> expands b e2 -> expands (a ++ b) (e1 ++ e2).
Proof.
  induction 1 as [|t l l' Ht H IH|n v d d' l l' Hn Hd Hv H1 IH1 H2 IH2]; intros Hb; cbn [app]; auto.
  - apply e_keep; auto.
  - rewrite <- app_assoc. eapply e_tag; eauto.
Qed.
Lemma expands_split a : forall b e, expands (a ++ b) e -> exists e1 e2, expands a e1 /\ expands b e2 /\ e = e1 ++ e2.
Proof.
  induction a as [|t a IH]; intros b e H; cbn [app] in H.
  - exists [], e. split; [constructor|auto].
  - inversion H as [|t' l l' Ht H1|n v d d' l l' Hn Hd Hv H1 H2]; subst.
    + destruct (IH _ _ H1) as (e1 & e2 & A & B & ->). exists (t :: e1), e2. split; [now apply e_keep|auto].
    + destruct (IH _ _ H2) as (e1 & e2 & A & B & ->). exists (d' ++ e1), e2. split; [eapply e_tag; eauto|]. rewrite app_assoc. auto.
Qed.
Lemma expands_fun l e : expands l e -> forall e', expands l e' -> e = e'.
Proof.
  induction 1 as [|t l l' Ht H IH|n v d d' l l' Hn Hd Hv H1 IH1 H2 IH2]; intros e' H'; inversion H' as [|t0 l0 l0' Ht0 H0|n0 v0 d0 d0' l0 l0' Hn0 Hd0 Hv0 H01 H02]; subst; auto.
  - f_equal. auto.
  - rewrite (Ht _ eq_refl) in Hn0. discriminate.
  - rewrite (Ht0 _ eq_refl) in Hn. discriminate.
  - rewrite Hn in Hn0. injection Hn0 as E. apply toks_unique in E; auto. subst d0. f_equal; auto.
Qed.
(** [d] is a part of the way from [d0] to its expansion *)
Definition way (d0 d : list tok) : Prop := forall e, expands d e -> expands d0 e.
Lemma way_put n v d0 d l : def n = Some v -> Forall tok_ok d0 -> v = toks_text d0 -> way d0 d -> way l (flat_map (put n d) l).
Proof.
  intros Hn Ho Hv W. induction l as [|t l IH]; intros e He; cbn [flat_map] in He; [exact He|].
  apply expands_split in He. destruct He as (e1 & e2 & H1 & H2 & ->). apply IH in H2.
  assert (K : put n d t = [t] \/ t = TTag n /\ put n d t = d).
  { destruct t as [c| |m]; cbn [put]; auto. destruct (eqb_spec m n) as [->|]; auto. }
  destruct K as [K|(-> & K)]; rewrite K in H1.
  - change (t :: l) with ([t] ++ l). now apply expands_app.
  - apply (e_tag def n v d0 e1 l e2); auto.
Qed.
(** a ring of definitions has no expansion *)
Lemma expands_ring (S : text -> Prop) : (forall n, S n -> exists v d m, def n = Some v /\ Forall tok_ok d /\ v = toks_text d /\ In (TTag m) d /\ S m) ->
  forall l e, expands l e -> forall n, S n -> ~ In (TTag n) l.
Proof.
  intros HS. induction 1 as [|t l l' Ht H IH|n v d d' l l' Hn Hd Hv H1 IH1 H2 IH2]; intros m Sm I; [destruct I| |].
  - destruct I as [->|I]; [|now apply (IH m)]. destruct (HS _ Sm) as (v & d & m' & E & _). rewrite (Ht _ eq_refl) in E. discriminate.
  - destruct I as [I|I]; [|now apply (IH2 m)]. injection I as ->. destruct (HS _ Sm) as (w & d1 & m' & E & Ho & Ew & Im & Sm').
    rewrite Hn in E. injection E as E. rewrite Hv, Ew in E. apply toks_unique in E; auto. subst d1. now apply (IH1 m').
Qed.
End Exp.

(** ** the loop gives the full expansion *)
Section Full.
Context (conditional : text) (ignore : list text) (addrepl : dict text text) (tags0 : dict text text).
Notation lookup := (lookup conditional addrepl).
Notation interpolate := (interpolate conditional ignore addrepl).
Definition def0 : text -> option text := definition conditional ignore tags0 addrepl.
Definition rel (v0 v : text) : Prop := exists d0 d, Forall tok_ok d0 /\ Forall tok_ok d /\ v0 = toks_text d0 /\ v = toks_text d /\ way def0 d0 d.
Definition good (tags : dict text text) : Prop :=
  dkeys tags = dkeys tags0 /\ (forall k v0 v, dget k tags0 = Some v0 -> dget k tags = Some v -> rel v0 v).
Context (reg : forall k v, dget k tags0 = Some v -> regular v) (rega : forall k v, dget k addrepl = Some v -> regular v).
Lemma rel_refl v : regular v -> rel v v.
Proof. intros (l & F & ->). exists l, l. repeat split; auto. now intros e. Qed.
Lemma good_init : good tags0.
Proof. split; [reflexivity|]. intros k v0 v H0 H. rewrite H0 in H. injection H as <-. apply rel_refl. eauto. Qed.
Lemma def0_lookup n : In n ignore -> def0 n = None.
Proof. intros I. unfold def0, definition. now rewrite (proj2 (inb_In _ _) I). Qed.
Lemma good_lookup tags n : good tags -> ~ In n ignore ->
  match lookup tags n with Some v => exists v0, def0 n = Some v0 /\ rel v0 v | None => def0 n = None end.
Proof.
  intros (K & G) N. unfold def0, definition, lookup. rewrite (proj2 (inb_false _ _) N).
  assert (D : forall k, match dget k tags with Some v => exists v0, dget k tags0 = Some v0 /\ rel v0 v | None => dget k tags0 = None end).
  { intros k. destruct (dget k tags) as [v|] eqn:E.
    - destruct (dget_ex k tags0) as (v0 & H0); [rewrite <- K; eapply dget_key; eauto|]. exists v0. split; [exact H0|]. eapply G; eauto.
    - apply dget_None in E. apply dget_None. now rewrite <- K. }
  destruct (eqb conditional []).
  - pose proof (D n) as Dn. destruct (dget n tags) as [v|].
    + destruct Dn as (v0 & -> & R). eauto.
    + rewrite Dn. destruct (dget n addrepl) eqn:E; [|reflexivity]. eexists. split; [reflexivity|]. apply rel_refl. eauto.
  - pose proof (D (n ++ "?"%char :: conditional)) as Dc. pose proof (D n) as Dn. unfold text in *.
    destruct (dget (n ++ "?"%char :: conditional) tags) as [v|].
    + destruct Dc as (v0 & -> & R). eauto.
    + rewrite Dc. destruct (dget n tags) as [v|].
      * destruct Dn as (v0 & -> & R). eauto.
      * rewrite Dn. destruct (dget n addrepl) eqn:E; [|reflexivity]. eexists. split; [reflexivity|]. apply rel_refl. eauto.
Qed.
Lemma skipn_toks a b : skipn (length (toks_text a)) (toks_text (a ++ b)) = toks_text b.
Proof. rewrite toks_text_app, skipn_app, Nat.sub_diag, skipn_all. reflexivity. Qed.
Lemma interpolate_full tags tag : good tags ->
  forall f a b rplc v c, Forall tok_ok a -> Forall tok_ok b -> final def0 a ->
  interpolate f tags tag (toks_text (a ++ b)) (length (toks_text a)) rplc = Ok (v, c) ->
  exists d, Forall tok_ok d /\ v = toks_text d /\ way def0 (a ++ b) d /\ final def0 d.
Proof.
  intros Hg. induction f as [|f IH]; intros a b rplc v c Ha Hb Hf H; [discriminate|]. cbn [Tags_Model.interpolate] in H.
  rewrite skipn_toks, search_toks in H by exact Hb.
  destruct (first_tag b) as [[[p n] r]|] eqn:E.
  2:{ injection H as <- <-. exists (a ++ b). split; [now apply Forall_app|]. split; [reflexivity|]. split; [now intros e|].
      intros n I. apply in_app_or in I. destruct I as [I|I]; [now apply Hf|]. now destruct (first_tag_none _ E n). }
  apply first_tag_some in E. destruct E as (-> & Np).
  assert (Hn : tag_name n) by (rewrite Forall_forall in Hb; apply (Hb (TTag n)); apply in_or_app; right; now left).
  apply Forall_app in Hb. destruct Hb as (Hp & Hb). inversion Hb as [|? ? _ Hr]; subst.
  assert (Skip : def0 n = None ->
     interpolate f tags tag (toks_text (a ++ p ++ TTag n :: r)) (length (toks_text a) + length (toks_text p) + length (bracket n)) rplc = Ok (v, c) ->
     exists d, Forall tok_ok d /\ v = toks_text d /\ way def0 (a ++ p ++ TTag n :: r) d /\ final def0 d).
  { intros Dn H'. replace (a ++ p ++ TTag n :: r) with ((a ++ p ++ [TTag n]) ++ r) in * by (rewrite <- !app_assoc; reflexivity).
    replace (length (toks_text a) + length (toks_text p) + length (bracket n))%nat with (length (toks_text (a ++ p ++ [TTag n]))) in H'.
    2:{ rewrite !toks_text_app, !app_length. unfold bracket. cbn [toks_text map concat tok_text]. rewrite app_nil_r. cbn [length]. rewrite !app_length. cbn [length]. lia. }
    apply IH in H'; auto.
    - rewrite !Forall_app. repeat split; auto.
    - intros m I. rewrite !in_app_iff in I. destruct I as [I|[I|[I|[]]]]; [now apply Hf|now destruct (Np m)|now injection I as <-]. }
  destruct (mem n ignore) eqn:Ei; [apply mem_In in Ei; apply Skip; auto; now apply def0_lookup|].
  assert (Ni : ~ In n ignore) by (intros I; apply mem_In in I; congruence).
  destruct (eqb n tag || (MAX_TAG_REPLACE_COUNT <? zget rplc n 1)); [discriminate|].
  pose proof (good_lookup tags n Hg Ni) as GL. destruct (lookup tags n) as [repl|]; [|apply Skip; auto].
  destruct GL as (v0 & Dn & (d0 & d & Hd0 & Hd & Ev0 & -> & W)).
  rewrite (replace_toks n d) in H; [|exact Hn| |lia].
  2:{ rewrite !Forall_app. repeat split; auto. }
  rewrite !flat_map_app in H.
  rewrite (put_none n d a) in H by (intros I; apply Hf in I; congruence).
  rewrite (put_none n d p) in H by apply Np.
  set (b' := flat_map (put n d) (TTag n :: r)) in *.
  replace (length (toks_text a) + length (toks_text p))%nat with (length (toks_text (a ++ p))) in H by (rewrite toks_text_app, app_length; reflexivity).
  rewrite app_assoc in H. apply IH in H.
  - destruct H as (e & He & -> & We & Fe). exists e. repeat split; auto.
    intros x Hx. apply We in Hx. apply (way_put def0 n v0 d0 d); auto.
    rewrite !flat_map_app. rewrite (put_none n d a) by (intros I; apply Hf in I; congruence). rewrite (put_none n d p) by apply Np. fold b'.
    now rewrite app_assoc.
  - now apply Forall_app.
  - unfold b'. apply put_ok; auto.
  - intros m I. apply in_app_or in I. destruct I as [I|I]; [now apply Hf|now destruct (Np m)].
Qed.

Definition solved (tags : dict text text) (k : text) : Prop :=
  forall v0, dget k tags0 = Some v0 -> exists d0 d, Forall tok_ok d0 /\ v0 = toks_text d0 /\ dget k tags = Some (toks_text d) /\ expands def0 d0 d.
Definition inv (st : sst) : Prop :=
  good (s_tags st) /\ (forall k, In k (s_done st) -> solved (s_tags st) k) /\ (forall k, In k ignore -> dget k (s_tags st) = dget k tags0).
Lemma no_lt_final d : Forall tok_ok d -> has "<"%char (toks_text d) = false -> forall n, ~ In (TTag n) d.
Proof.
  intros Hd Hl n I. assert (T : In lt (toks_text d)).
  { unfold toks_text. apply in_concat. exists (tok_text (TTag n)). split; [now apply in_map|now left]. }
  unfold has in Hl. assert (existsb (eqb "<"%char) (toks_text d) = true) by (apply existsb_exists; exists lt; split; [exact T|reflexivity]). congruence.
Qed.
Lemma solved_other tags k k' v : k <> k' -> solved tags k -> solved (dset k' v tags) k.
Proof.
  intros N S v0 H. destruct (S v0 H) as (d0 & d & A & B & C & D). exists d0, d. rewrite dget_dset_other by exact N. auto.
Qed.
Lemma pass_tag_inv f st k st' : inv st -> pass_tag conditional ignore addrepl f st k = Ok st' ->
  inv st' /\ (forall x, solved (s_tags st) x -> solved (s_tags st') x) /\ (~ In k ignore -> solved (s_tags st') k).
Proof.
  intros (Hg & Hd & Hi) H. unfold pass_tag in H.
  destruct (mem k ignore || mem k (s_done st)) eqn:Em.
  { injection H as <-. split; [split; auto|]. split; [auto|]. intros N. apply orb_true_iff in Em.
    destruct Em as [Em|Em]; apply mem_In in Em; [now destruct N|auto]. }
  apply orb_false_iff in Em. destruct Em as (Em & _).
  destruct (dget k (s_tags st)) as [v|] eqn:Ek.
  2:{ injection H as <-. split; [split; auto|]. split; [auto|]. intros _ v0 H0. exfalso. destruct Hg as (K & _).
      apply dget_None in Ek. apply Ek. rewrite K. eapply dget_key; eauto. }
  destruct (Tags_Model.interpolate conditional ignore addrepl f (s_tags st) k v 0 _) as [[v' c]| |] eqn:Ei; try discriminate.
  destruct (dget_ex k tags0) as (v0 & H0). { destruct Hg as (K & _). rewrite <- K. eapply dget_key; eauto. }
  destruct (proj2 Hg _ _ _ H0 Ek) as (d0 & d & O0 & O & E0 & E & W).
  assert (X : exists e, Forall tok_ok e /\ v' = toks_text e /\ way def0 ([] ++ d) e /\ final def0 e).
  { eapply (interpolate_full (s_tags st) k Hg f [] d); eauto.
    - intros n [].
    - cbn [app]. rewrite <- E. exact Ei. }
  cbn [app] in X. destruct X as (e & Oe & -> & We & Fe).
  assert (Ex : expands def0 d0 e) by (apply W, We, expands_final, Fe).
  assert (Tags : forall x, dget x (if negb (eqb v (toks_text e)) then dset k (toks_text e) (s_tags st) else s_tags st) = if eqb x k then Some (toks_text e) else dget x (s_tags st)).
  { intros x. destruct (eqb_spec v (toks_text e)) as [<-|Nv]; cbn [negb].
    - destruct (eqb_spec x k) as [->|]; auto.
    - apply dget_dset. }
  assert (Sk : solved (if negb (eqb v (toks_text e)) then dset k (toks_text e) (s_tags st) else s_tags st) k).
  { intros w Hw. rewrite H0 in Hw. injection Hw as <-. exists d0, e. rewrite Tags, eqb_refl. auto. }
  assert (So : forall x, solved (s_tags st) x -> solved (if negb (eqb v (toks_text e)) then dset k (toks_text e) (s_tags st) else s_tags st) x).
  { intros x Sx. destruct (eqb_spec x k) as [->|N]; [exact Sk|]. intros w Hw. destruct (Sx w Hw) as (p & q & A & B & C & D).
    exists p, q. rewrite Tags. destruct (eqb_spec x k); [congruence|]. auto. }
  injection H as <-. unfold inv. cbn [s_tags s_done]. split; [|split; [exact So|intros _; exact Sk]]. split; [|split].
  - destruct Hg as (K & G). split.
    + destruct (negb (eqb v (toks_text e))); [|exact K]. rewrite dkeys_dset_mem; [exact K|]. eapply dget_key; eauto.
    + intros x w0 w Hw0 Hw. rewrite Tags in Hw. destruct (eqb_spec x k) as [->|N]; [|eapply G; eauto].
      injection Hw as <-. rewrite H0 in Hw0. injection Hw0 as <-. exists d0, e. repeat split; auto.
      intros y Hy. apply W, We, Hy.
  - intros x I. destruct (has "<"%char (toks_text e)); [|destruct I as [<-|I]; [exact Sk|]]; apply So, Hd, I.
  - intros x I. rewrite Tags. destruct (eqb_spec x k) as [->|]; [|auto]. apply mem_In in I. congruence.
Qed.
Lemma pass_inv : forall keys f st st', inv st -> pass conditional ignore addrepl f st keys = Ok st' ->
  inv st' /\ (forall x, solved (s_tags st) x -> solved (s_tags st') x) /\ (forall k, In k keys -> ~ In k ignore -> solved (s_tags st') k).
Proof.
  induction keys as [|k keys IH]; intros f st st' Hi H; cbn [pass] in H.
  - injection H as <-. split; [exact Hi|]. split; [auto|]. intros k [].
  - destruct (pass_tag conditional ignore addrepl f st k) as [st1| |] eqn:E; try discriminate.
    destruct (pass_tag_inv _ _ _ _ Hi E) as (I1 & S1 & K1). destruct (IH _ _ _ I1 H) as (I2 & S2 & K2).
    split; [exact I2|]. split; [auto|]. intros x [->|I] N; auto.
Qed.
Lemma passes_full : forall f st tags', inv st -> passes conditional ignore addrepl f st = Ok tags' ->
  dkeys tags' = dkeys tags0 /\ (forall k, ~ In k ignore -> solved tags' k) /\ (forall k, In k ignore -> dget k tags' = dget k tags0).
Proof.
  induction f as [|f IH]; intros st tags' Hi H; [discriminate|]. cbn [passes] in H.
  destruct (pass conditional ignore addrepl (S f) _ _) as [st1| |] eqn:E; try discriminate.
  destruct (pass_inv _ _ _ _ (Hi : inv (mkSst (s_tags st) (s_done st) (s_counts st) false)) E) as (I1 & S1 & K1).
  destruct (s_rep st1); [eauto|]. injection H as <-. destruct I1 as (G1 & D1 & J1). split; [apply G1|]. split; [|exact J1].
  intros k N. destruct (inb k (dkeys (s_tags st))) eqn:Ek.
  - apply inb_In in Ek. now apply K1.
  - intros v0 H0. exfalso. apply inb_false in Ek. apply Ek. destruct Hi as ((K & _) & _). rewrite K. eapply dget_key; eauto.
Qed.
Lemma substitute_full f tags' : substitute conditional ignore addrepl f tags0 = Ok tags' ->
  dkeys tags' = dkeys tags0 /\ (forall k, ~ In k ignore -> solved tags' k) /\ (forall k, In k ignore -> dget k tags' = dget k tags0).
Proof.
  apply passes_full. split; [apply good_init|]. split; [intros k []|auto].
Qed.
End Full.
