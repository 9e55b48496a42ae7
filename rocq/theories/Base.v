(** Shared vocabulary of the model: decidable equality as a boolean, and Python
    dictionaries as insertion-ordered association lists.

    Python facts modelled here (no line of /repo): since 3.7 a [dict] iterates in
    insertion order, assigning an existing key keeps its position, deleting keeps
    the order of the rest, re-inserting a deleted key appends. *)
From Coq Require Export String Ascii ZArith Lia Bool List.
From Coq Require Import Permutation.
Export ListNotations.
Open Scope Z_scope.

(** ** Boolean equality *)
Class EqB (K : Type) := { eqb : K -> K -> bool; eqb_eq : forall x y, eqb x y = true <-> x = y }.

#[export] Instance EqB_string : EqB string := {| eqb := String.eqb; eqb_eq := String.eqb_eq |}.
#[export] Instance EqB_Z : EqB Z := {| eqb := Z.eqb; eqb_eq := Z.eqb_eq |}.
#[export] Instance EqB_nat : EqB nat := {| eqb := Nat.eqb; eqb_eq := Nat.eqb_eq |}.
#[export] Instance EqB_bool : EqB bool := {| eqb := Bool.eqb; eqb_eq := Bool.eqb_true_iff |}.
#[export] Instance EqB_ascii : EqB ascii := {| eqb := Ascii.eqb; eqb_eq := Ascii.eqb_eq |}.

#[export] Instance EqB_prod A B (EA : EqB A) (EB : EqB B) : EqB (A * B).
Proof.
  refine {| eqb := fun x y => eqb (fst x) (fst y) && eqb (snd x) (snd y) |}.
  intros [a b] [c d]; cbn. rewrite andb_true_iff, !eqb_eq. split.
  - intros [-> ->]; reflexivity.
  - intros E; injection E; auto.
Defined.

#[export] Instance EqB_option A (EA : EqB A) : EqB (option A).
Proof.
  refine {| eqb := fun x y => match x, y with
                              | Some a, Some b => eqb a b
                              | None, None => true
                              | _, _ => false end |}.
  intros [a|] [b|]; split; intros E; try discriminate; try reflexivity.
  - cbn in E. apply (proj1 (eqb_eq a b)) in E. congruence.
  - cbn. apply (proj2 (eqb_eq a b)). congruence.
Defined.

#[export] Instance EqB_list A (EA : EqB A) : EqB (list A).
Proof.
  refine {| eqb := fix go x y := match x, y with
                              | [], [] => true
                              | a :: x', b :: y' => eqb a b && go x' y'
                              | _, _ => false end |}.
  induction x as [|a x IH]; destruct y as [|b y]; split; intros E;
    try discriminate; try reflexivity.
  - apply andb_true_iff in E as [E1 E2]. apply (proj1 (eqb_eq a b)) in E1.
    apply IH in E2. congruence.
  - injection E as -> ->. apply andb_true_iff.
    split; [now apply (proj2 (eqb_eq b b)) | now apply IH].
Defined.

Arguments eqb {K EqB} x y : simpl never.

Section EqB_facts.
  Context {K : Type} {EK : EqB K}.
  Lemma eqb_true (x y : K) : eqb x y = true -> x = y.
  Proof. apply eqb_eq. Qed.
  Lemma eqb_refl (x : K) : eqb x x = true.
  Proof. now apply eqb_eq. Qed.
  Lemma eqb_neq (x y : K) : eqb x y = false <-> x <> y.
  Proof.
    split; intros H.
    - intros ->. rewrite eqb_refl in H. discriminate.
    - destruct (eqb x y) eqn:E; auto. apply eqb_true in E. contradiction.
  Qed.
  Lemma eqb_sym (x y : K) : eqb x y = eqb y x.
  Proof.
    destruct (eqb x y) eqn:E.
    - apply eqb_true in E as ->. symmetry; apply eqb_refl.
    - symmetry. apply eqb_neq. apply eqb_neq in E. congruence.
  Qed.
  Lemma eqb_spec (x y : K) : reflect (x = y) (eqb x y).
  Proof. destruct (eqb x y) eqn:E; constructor; [now apply eqb_eq | now apply eqb_neq]. Qed.
End EqB_facts.

(** ** Membership test in a list *)
Definition inb {K} {EK : EqB K} (x : K) (l : list K) : bool := existsb (eqb x) l.

Lemma inb_In {K} {EK : EqB K} (x : K) l : inb x l = true <-> In x l.
Proof.
  unfold inb. rewrite existsb_exists. split.
  - intros (y & Hy & E). apply eqb_true in E as ->. exact Hy.
  - intros H. exists x. split; [exact H | apply eqb_refl].
Qed.

Lemma inb_false {K} {EK : EqB K} (x : K) l : inb x l = false <-> ~ In x l.
Proof.
  rewrite <- inb_In. destruct (inb x l); split; congruence.
Qed.

(** ** Dictionaries *)
Definition dict (K V : Type) := list (K * V).

Section Dict.
  Context {K V : Type} {EK : EqB K}.

  Fixpoint dget (k : K) (d : dict K V) : option V :=
    match d with
    | [] => None
    | (k', v) :: r => if eqb k k' then Some v else dget k r
    end.

  Fixpoint dset (k : K) (v : V) (d : dict K V) : dict K V :=
    match d with
    | [] => [(k, v)]
    | (k', v') :: r => if eqb k k' then (k', v) :: r else (k', v') :: dset k v r
    end.

  Fixpoint ddel (k : K) (d : dict K V) : dict K V :=
    match d with
    | [] => []
    | (k', v') :: r => if eqb k k' then r else (k', v') :: ddel k r
    end.

  Definition dmem (k : K) (d : dict K V) : bool :=
    match dget k d with Some _ => true | None => false end.

  Definition dkeys (d : dict K V) : list K := map fst d.
  Definition dvals (d : dict K V) : list V := map snd d.

  (** A well-formed dictionary has each key once. *)
  Definition dwf (d : dict K V) : Prop := NoDup (dkeys d).

  Lemma dget_In k v d : dget k d = Some v -> In (k, v) d.
  Proof.
    induction d as [|[k' v'] r IH]; cbn; [discriminate|].
    destruct (eqb_spec k k') as [->|N]; intros E; [left; congruence | right; auto].
  Qed.

  Lemma dget_key k v d : dget k d = Some v -> In k (dkeys d).
  Proof. intros H. apply dget_In in H. apply in_map_iff. exists (k, v); auto. Qed.

  Lemma dget_None k d : dget k d = None <-> ~ In k (dkeys d).
  Proof.
    induction d as [|[k' v'] r IH]; cbn; [tauto|].
    destruct (eqb_spec k k') as [->|N].
    - split; [discriminate | tauto].
    - rewrite IH. split; [|tauto]. intros H [E|E]; [congruence | contradiction].
  Qed.

  Lemma dget_ex k d : In k (dkeys d) -> exists v, dget k d = Some v.
  Proof.
    intros H. destruct (dget k d) as [v|] eqn:E; [eauto|].
    apply dget_None in E. contradiction.
  Qed.

  Lemma In_dget k v d : dwf d -> In (k, v) d -> dget k d = Some v.
  Proof.
    unfold dwf. induction d as [|[k' v'] r IH]; cbn; [tauto|].
    intros Hn [E|Hin].
    - injection E as -> ->. now rewrite eqb_refl.
    - inversion Hn as [|? ? Hni Hnd]; subst.
      destruct (eqb_spec k k') as [->|N]; [|auto].
      exfalso. apply Hni. apply in_map_iff. exists (k', v); auto.
  Qed.

  Lemma dmem_In k d : dmem k d = true <-> In k (dkeys d).
  Proof.
    unfold dmem. destruct (dget k d) as [v|] eqn:E.
    - split; auto. intros _. eapply dget_key; eauto.
    - apply dget_None in E. split; [discriminate | tauto].
  Qed.

  Lemma dget_dset k k' v d :
    dget k (dset k' v d) = if eqb k k' then Some v else dget k d.
  Proof.
    induction d as [|[k1 v1] r IH]; cbn; [reflexivity|].
    destruct (eqb_spec k' k1) as [->|N1]; cbn.
    - destruct (eqb_spec k k1) as [->|N2]; reflexivity.
    - destruct (eqb_spec k k1) as [->|N2].
      + destruct (eqb_spec k1 k') as [E|_]; [congruence | reflexivity].
      + exact IH.
  Qed.

  Lemma dget_dset_same k v d : dget k (dset k v d) = Some v.
  Proof. now rewrite dget_dset, eqb_refl. Qed.
  Lemma dget_dset_other k k' v d : k <> k' -> dget k (dset k' v d) = dget k d.
  Proof. intros N. rewrite dget_dset. apply eqb_neq in N. now rewrite N. Qed.

  Lemma dkeys_dset_mem k v d : In k (dkeys d) -> dkeys (dset k v d) = dkeys d.
  Proof.
    induction d as [|[k1 v1] r IH]; cbn; [tauto|]. intros H.
    destruct (eqb_spec k k1) as [->|N]; cbn; [reflexivity|].
    f_equal. apply IH. destruct H as [E|H]; [congruence | exact H].
  Qed.

  Lemma dset_notin k v d : ~ In k (dkeys d) -> dset k v d = d ++ [(k, v)].
  Proof.
    induction d as [|[k1 v1] r IH]; cbn; intros H; [reflexivity|].
    destruct (eqb_spec k k1) as [->|N]; [tauto|]. f_equal. apply IH. tauto.
  Qed.

  Lemma dkeys_dset k v d :
    dkeys (dset k v d) = if dmem k d then dkeys d else dkeys d ++ [k].
  Proof.
    destruct (dmem k d) eqn:E.
    - apply dmem_In in E. now apply dkeys_dset_mem.
    - rewrite dset_notin.
      + unfold dkeys. now rewrite map_app.
      + intros H. apply dmem_In in H. congruence.
  Qed.

  Lemma dwf_nil : dwf [].
  Proof. constructor. Qed.

  Lemma NoDup_snoc {A} (l : list A) x : NoDup l -> ~ In x l -> NoDup (l ++ [x]).
  Proof.
    intros H N. apply (Permutation.Permutation_NoDup (l := x :: l)).
    - apply Permutation.Permutation_cons_append.
    - now constructor.
  Qed.

  Lemma dwf_dset k v d : dwf d -> dwf (dset k v d).
  Proof.
    unfold dwf. intros H. rewrite dkeys_dset. destruct (dmem k d) eqn:E; [exact H|].
    apply NoDup_snoc; [exact H|]. intros I. apply dmem_In in I. congruence.
  Qed.

  Lemma In_ddel kv k d : In kv (ddel k d) -> In kv d.
  Proof.
    induction d as [|[k1 v1] r IH]; cbn; [tauto|].
    destruct (eqb k k1); cbn; [tauto|]. intros [E|H]; auto.
  Qed.

  Lemma dkeys_ddel_incl k d : forall x, In x (dkeys (ddel k d)) -> In x (dkeys d).
  Proof.
    intros x H. apply in_map_iff in H as (kv & <- & H). apply In_ddel in H.
    apply in_map_iff. eauto.
  Qed.

  Lemma dwf_ddel k d : dwf d -> dwf (ddel k d).
  Proof.
    unfold dwf. induction d as [|[k1 v1] r IH]; cbn; [auto|]. intros H.
    inversion H as [|? ? Hni Hnd]; subst.
    destruct (eqb k k1); [exact Hnd|]. cbn. constructor; [|auto].
    intros I. apply dkeys_ddel_incl in I. contradiction.
  Qed.

  Lemma dget_ddel k k' d : dwf d ->
    dget k (ddel k' d) = if eqb k k' then None else dget k d.
  Proof.
    unfold dwf. induction d as [|[k1 v1] r IH]; cbn; intros H.
    - now destruct (eqb k k').
    - inversion H as [|? ? Hni Hnd]; subst.
      destruct (eqb_spec k' k1) as [->|N1]; cbn.
      + destruct (eqb_spec k k1) as [->|N2]; [|reflexivity].
        now apply dget_None.
      + destruct (eqb_spec k k1) as [->|N2].
        * destruct (eqb_spec k1 k') as [E|_]; [congruence | reflexivity].
        * now apply IH.
  Qed.

  Lemma dget_ddel_same k d : dwf d -> dget k (ddel k d) = None.
  Proof. intros H. rewrite dget_ddel by exact H. now rewrite eqb_refl. Qed.
  Lemma dget_ddel_other k k' d : k <> k' -> dget k (ddel k' d) = dget k d.
  Proof.
    intros N. induction d as [|[k1 v1] r IH]; cbn; [reflexivity|].
    destruct (eqb_spec k' k1) as [->|N1]; cbn.
    - destruct (eqb_spec k k1); [congruence | reflexivity].
    - destruct (eqb k k1); [reflexivity | exact IH].
  Qed.

  Lemma ddel_filter k d : dwf d -> ddel k d = filter (fun kv => negb (eqb k (fst kv))) d.
  Proof.
    unfold dwf. induction d as [|[k1 v1] r IH]; cbn; intros H; [reflexivity|].
    inversion H as [|? ? Hni Hnd]; subst.
    destruct (eqb_spec k k1) as [->|N]; cbn.
    - symmetry. clear -Hni EK. induction r as [|[k2 v2] r IH]; cbn in *; [reflexivity|].
      destruct (eqb_spec k1 k2) as [->|N]; cbn; [tauto|]. f_equal. tauto.
    - f_equal. auto.
  Qed.

  Lemma dkeys_app d1 d2 : dkeys (d1 ++ d2) = dkeys d1 ++ dkeys d2.
  Proof. apply map_app. Qed.

  Lemma dwf_filter f (d : dict K V) : dwf d -> dwf (filter f d).
  Proof.
    unfold dwf. induction d as [|[k v] r IH]; cbn; intros H; [constructor|].
    inversion H as [|? ? Hni Hnd]; subst.
    destruct (f (k, v)); cbn; [constructor|]; auto.
    intros I. apply Hni. apply in_map_iff in I as (kv & E & I).
    apply filter_In in I as [I _]. apply in_map_iff. eauto.
  Qed.

  Lemma dget_filter f (d : dict K V) k : dwf d ->
    dget k (filter f d) = match dget k d with
                          | Some v => if f (k, v) then Some v else None
                          | None => None
                          end.
  Proof.
    unfold dwf. induction d as [|[k1 v1] r IH]; cbn; intros H; [reflexivity|].
    inversion H as [|? ? Hni Hnd]; subst.
    destruct (f (k1, v1)) eqn:Ef; cbn.
    - destruct (eqb_spec k k1) as [->|N]; [now rewrite Ef|]. auto.
    - destruct (eqb_spec k k1) as [->|N]; [|auto].
      rewrite Ef, IH by exact Hnd.
      assert (E : dget k1 r = None) by now apply dget_None. now rewrite E.
  Qed.

  Lemma dget_app k d1 d2 :
    dget k (d1 ++ d2) = match dget k d1 with Some v => Some v | None => dget k d2 end.
  Proof.
    induction d1 as [|[k1 v1] r IH]; cbn; [reflexivity|].
    destruct (eqb k k1); auto.
  Qed.
End Dict.

(** Small list helpers used by several models *)
(** Python [l[-n:]] for n > 0. *)
Definition last_n {A} (n : nat) (l : list A) : list A := skipn (length l - n) l.

Lemma last_n_length {A} n (l : list A) : length (last_n n l) = Nat.min n (length l).
Proof. unfold last_n. rewrite skipn_length. lia. Qed.

Lemma last_n_suffix {A} n (l : list A) : exists p, l = p ++ last_n n l.
Proof. exists (firstn (length l - n) l). unfold last_n. symmetry. apply firstn_skipn. Qed.

Lemma filter_filter_and {A} (f g : A -> bool) l : filter g (filter f l) = filter (fun x => f x && g x) l.
Proof.
  induction l as [|a l IH]; cbn; [reflexivity|]. destruct (f a); cbn; [|exact IH].
  destruct (g a); now rewrite IH.
Qed.
