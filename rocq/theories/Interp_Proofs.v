(** Proofs about values with references. *)
From Coq Require Import Arith.
From Verif Require Import Base Text Config_Model Config_Spec Config_Proofs Interp_Model Interp_Spec.
Local Open Scope string_scope.
Local Open Scope list_scope.
Local Open Scope nat_scope.

(** ** Names *)
Lemma inb_In (c : ascii) s : inb c s = true <-> In c s.
Proof.
  unfold inb. rewrite existsb_exists. split.
  - intros (x & I & E). apply eqb_true in E. now subst.
  - intros I. exists c. split; auto. apply eqb_refl.
Qed.
Lemma lower_char_idem c : lower_char (lower_char c) = lower_char c.
Proof. destruct c as [[] [] [] [] [] [] [] []]; reflexivity. Qed.
Lemma lower_idem s : lower (lower s) = lower s.
Proof. unfold lower. rewrite map_map. apply map_ext. exact lower_char_idem. Qed.
Lemma lower_char_slash c : lower_char c = slash -> c = slash.
Proof. destruct c as [[] [] [] [] [] [] [] []]; intros H; vm_compute in H; try discriminate; reflexivity. Qed.
Lemma lower_slash s : In slash (lower s) -> In slash s.
Proof. unfold lower. rewrite in_map_iff. intros (c & E & I). apply lower_char_slash in E. now subst. Qed.
Lemma secname_iff c : is_secname c = true <-> is_word c = true \/ c = "-"%char.
Proof. unfold is_secname. rewrite orb_true_iff, eqb_eq. tauto. Qed.
Lemma slash_not_secname : is_secname slash = false.
Proof. reflexivity. Qed.
Lemma cross_unique n sec opt sec' opt' : is_cross n sec opt -> is_cross n sec' opt' -> sec = sec' /\ opt = opt'.
Proof.
  intros (-> & _ & _ & F) (E & _ & _ & F').
  assert (A : span is_secname (sec ++ slash :: opt) = (sec, slash :: opt)).
  { apply span_unique; [|reflexivity]. eapply Forall_impl; [|exact F]. intros c. apply secname_iff. }
  assert (B : span is_secname (sec' ++ slash :: opt') = (sec', slash :: opt')).
  { apply span_unique; [|reflexivity]. eapply Forall_impl; [|exact F']. intros c. apply secname_iff. }
  change "/"%char with slash in E. rewrite E in A. rewrite A in B. injection B as -> ->. auto.
Qed.
Lemma cross_slash n sec opt : is_cross n sec opt -> In slash n.
Proof. intros (-> & _). apply in_app_iff. right. now left. Qed.

(** [n] as sec/opt *)
Definition cross (n : text) : option (text * text) :=
  match span is_secname n with
  | (x :: sec, sl :: y :: opt) => if eqb sl slash then Some (x :: sec, y :: opt) else None
  | _ => None
  end.
Lemma cross_some n sec opt : cross n = Some (sec, opt) <-> is_cross n sec opt.
Proof.
  unfold cross. destruct (span_spec is_secname n) as (a & b & E & -> & F & H). rewrite E. split.
  - destruct a as [|x a], b as [|sl [|y b]]; try discriminate. destruct (eqb_spec sl slash) as [->|N]; [|discriminate]. intros Q. injection Q as <- <-.
    repeat split; try discriminate. eapply Forall_impl; [|exact F]. intros c. apply secname_iff.
  - intros (Q & N1 & N2 & F'). assert (B : span is_secname (sec ++ slash :: opt) = (sec, slash :: opt)).
    { apply span_unique; [|reflexivity]. eapply Forall_impl; [|exact F']. intros c. apply secname_iff. }
    change "/"%char with slash in Q. rewrite Q in E. rewrite E in B. injection B as -> ->. destruct sec as [|x sec]; [congruence|]. destruct opt as [|y opt]; [congruence|].
    now rewrite eqb_refl.
Qed.
Definition own (c : config) (section : text) (vars : dict text text) (n : text) : option text :=
  first_some (given vars n) (first_some (value_of c section n) (dget n (defaults c))).
Definition far (c : config) (section sec opt : text) : option text :=
  if eqb sec (tx "default") then dget opt (defaults c)
  else if eqb sec (tx "known") then first_some (value_of c (tx "KNOWN/" ++ section) opt) (dget opt (defaults c))
  else match dget sec (sections c) with Some _ => first_some (value_of c sec opt) (dget opt (defaults c)) | None => None end.
Lemma far_elsewhere c section sec opt : elsewhere c section sec opt (far c section sec opt).
Proof.
  unfold far. destruct (eqb_spec sec (tx "default")) as [->|N1]; [now constructor|].
  destruct (eqb_spec sec (tx "known")) as [->|N2]; [now constructor|].
  destruct (dget sec (sections c)) eqn:E; [apply e_section|apply e_none]; auto. congruence.
Qed.
Lemma elsewhere_far c section sec opt x : elsewhere c section sec opt x -> x = far c section sec opt.
Proof.
  unfold far. intros [->| ->|N1 N2 E|N1 N2 E]; try reflexivity.
  - apply eqb_neq in N1, N2. rewrite N1, N2. destruct (dget sec (sections c)); congruence.
  - apply eqb_neq in N1, N2. rewrite N1, N2. now rewrite E.
Qed.
Definition the_scope (c : config) (section : text) (vars : dict text text) (n : text) : option text :=
  if eqb n (tx "__name__") then Some section
  else match own c section vars n with
       | Some v => Some v
       | None => match cross n with Some (sec, opt) => far c section sec opt | None => None end
       end.
Lemma the_scope_names c section vars n : names c section vars n (the_scope c section vars n).
Proof.
  unfold the_scope. destruct (eqb_spec n (tx "__name__")) as [->|N]; [now constructor|]. destruct (own c section vars n) as [v|] eqn:E; [now constructor|].
  destruct (cross n) as [[sec opt]|] eqn:C.
  - apply cross_some in C. eapply n_cross; eauto using far_elsewhere.
  - apply n_none; auto. intros sec opt H. apply cross_some in H. congruence.
Qed.
Lemma names_the_scope c section vars n x : names c section vars n x -> x = the_scope c section vars n.
Proof.
  unfold the_scope, own. intros [->|v N E|sec opt y N E C F|N E C]; try reflexivity; apply eqb_neq in N; rewrite N, E; try reflexivity.
  - apply cross_some in C. rewrite C. now apply elsewhere_far.
  - destruct (cross n) as [[sec opt]|] eqn:Q; auto. apply cross_some in Q. now apply C in Q.
Qed.

(** ** The map *)
Lemma own_given vars n : forall d, dget n (fold_left (fun d kv => dset (lower (fst kv)) (snd kv) d) vars d) = first_some (given vars n) (dget n d).
Proof.
  assert (K : forall (l : list text) a, last_of (a :: l) = first_some (last_of l) (Some a)).
  { intros l a. unfold last_of. cbn [rev]. destruct (rev l); reflexivity. }
  induction vars as [|[k v] vars IH]; intros d; cbn [fold_left fst snd]; [reflexivity|]. rewrite IH. unfold given. cbn [filter fst].
  destruct (eqb_spec (lower k) n) as [<-|N].
  - cbn [map snd]. rewrite K, dget_dset_same. destruct (last_of _); reflexivity.
  - now rewrite dget_dset_other by congruence.
Qed.
Lemma mget_mset_same m k v : mget (mset m k v) k = Some v.
Proof. unfold mget, mset. cbn. now rewrite dget_dset_same. Qed.
Lemma mget_mset_other m k k' v : k <> k' -> mget (mset m k v) k' = mget m k'.
Proof. intros N. unfold mget, mset. cbn. rewrite dget_dset_other; auto. Qed.
Lemma unify_get c section vars m : unify c section vars = Some m -> forall n, mget m n = own c section vars n.
Proof.
  unfold unify. intros H n. unfold own.
  assert (O : dget n (fold_left (fun d kv => dset (lower (fst kv)) (snd kv) d) vars []) = given vars n).
  { rewrite own_given. cbn. destruct (given vars n); reflexivity. }
  unfold value_of. destruct (dget section (sections c)) as [s|].
  - injection H as <-. unfold mget. cbn [m_own m_sec m_def]. rewrite O. destruct (given vars n); [reflexivity|]. destruct (dget n s); reflexivity.
  - destruct (eqb section (tx "DEFAULT")); [|discriminate]. injection H as <-. unfold mget. cbn [m_own m_sec m_def]. rewrite O. destruct (given vars n); reflexivity.
Qed.
Lemma unify_there c section vars : there c section <-> exists m, unify c section vars = Some m.
Proof.
  unfold there, unify. destruct (dget section (sections c)) as [s|].
  - split; eauto. intros _. left. discriminate.
  - destruct (eqb_spec section (tx "DEFAULT")) as [->|N]; split; eauto.
    + intros [[]| ->]; congruence.
    + intros [m M]. discriminate.
Qed.

(** ** Splitting at a parenthesis *)
Lemma first_rpar (a b x y : text) : ~ In rpar a -> ~ In rpar b -> a ++ rpar :: x = b ++ rpar :: y -> a = b /\ x = y.
Proof.
  revert b. induction a as [|c a IH]; intros [|d b] Na Nb E; cbn in E.
  - injection E as ->. auto.
  - injection E as <- _. destruct Nb. now left.
  - injection E as -> _. destruct Na. now left.
  - injection E as -> E. destruct (IH b) as [-> ->]; auto; intros I; [apply Na|apply Nb]; now right.
Qed.
Lemma no_rpar (a : text) : Forall (fun c => negb (eqb c rpar) = true) a <-> ~ In rpar a.
Proof.
  rewrite Forall_forall. split.
  - intros H I. apply H in I. rewrite eqb_refl in I. discriminate.
  - intros N c I. apply negb_true_iff, eqb_neq. congruence.
Qed.
Lemma no_percent (a : text) : Forall (fun c => negb (eqb c percent) = true) a <-> ~ In percent a.
Proof.
  rewrite Forall_forall. split.
  - intros H I. apply H in I. rewrite eqb_refl in I. discriminate.
  - intros N c I. apply negb_true_iff, eqb_neq. congruence.
Qed.
Lemma optsubst_some s sec opt r : optsubst s = Some (sec, opt, r) <->
  s = percent :: lpar :: (sec ++ slash :: opt) ++ rpar :: "s"%char :: r /\ is_cross (sec ++ slash :: opt) sec opt /\ ~ In rpar opt.
Proof.
  split.
  - unfold optsubst. destruct s as [|p [|l s]]; try discriminate. destruct (eqb_spec p percent) as [->|]; [|discriminate]. destruct (eqb_spec l lpar) as [->|]; [|discriminate].
    cbn [andb]. destruct (span_spec is_secname s) as (a & b & E & -> & F & _). rewrite E. destruct a as [|x a]; [discriminate|]. destruct b as [|sl b]; [discriminate|].
    destruct (eqb_spec sl slash) as [->|]; [|discriminate]. destruct (span_spec (fun c => negb (eqb c rpar)) b) as (o & q & E2 & -> & F2 & H2). rewrite E2.
    destruct o as [|y o]; [discriminate|]. destruct q as [|z [|e q]]; try discriminate. destruct (eqb_spec e "s"%char) as [->|]; [|discriminate].
    intros H. injection H as <- <- <-. apply negb_false_iff, eqb_true in H2 as ->. split; [|split; [|now apply no_rpar]].
    + cbn [app]. rewrite <- !app_assoc. reflexivity.
    + repeat split; try discriminate. eapply Forall_impl; [|exact F]. intros c. apply secname_iff.
  - intros (-> & (_ & N1 & N2 & F) & N). unfold optsubst. rewrite !eqb_refl. cbn [andb]. rewrite <- app_assoc. cbn [app].
    rewrite span_unique; [|eapply Forall_impl; [|exact F]; intros c; apply secname_iff|reflexivity].
    destruct sec as [|x sec]; [congruence|]. rewrite eqb_refl. rewrite span_unique; [|now apply no_rpar|now rewrite eqb_refl].
    destruct opt as [|y opt]; [congruence|]. now rewrite eqb_refl.
Qed.
Lemma secname_not_rpar sec : Forall (fun c => is_word c = true \/ c = "-"%char) sec -> ~ In rpar sec.
Proof. intros F I. rewrite Forall_forall in F. apply F in I as [I|I]; discriminate. Qed.
Lemma cross_not_rpar sec opt : is_cross (sec ++ slash :: opt) sec opt -> ~ In rpar opt -> ~ In rpar (sec ++ slash :: opt).
Proof.
  intros (_ & _ & _ & F) N I. apply in_app_iff in I as [I|[I|I]]; auto; [now apply secname_not_rpar in F|discriminate].
Qed.

(** ** What is found *)
Lemma optsubst_not_percent x t : x <> percent -> optsubst (x :: t) = None.
Proof.
  intros N. destruct (optsubst (x :: t)) as [[[sec opt] r]|] eqn:E; auto. apply optsubst_some in E as (E & _). injection E as E _. congruence.
Qed.
Lemma optsubst_not_lpar x t : x <> lpar -> optsubst (percent :: x :: t) = None.
Proof.
  intros N. destruct (optsubst (percent :: x :: t)) as [[[sec opt] r]|] eqn:E; auto. apply optsubst_some in E as (E & _). injection E as E _. congruence.
Qed.
Lemma findall_skip x t n : optsubst (x :: t) = None -> findall (S n) (x :: t) = findall n t.
Proof. intros H. cbn [findall]. now rewrite H. Qed.
Lemma findall_lit z t rest : ~ In percent t -> (forall n, length rest <= n -> In z (findall n rest)) ->
  forall n, length (t ++ rest) <= n -> In z (findall n (t ++ rest)).
Proof.
  intros N H. induction t as [|x t IH]; intros n L; [auto|]. cbn [app length] in *. destruct n as [|n]; [lia|].
  rewrite findall_skip; [|apply optsubst_not_percent; intros ->; apply N; now left]. apply IH; [|lia]. intros I. apply N. now right.
Qed.
Lemma findall_inside z u rest : ~ In rpar u -> (forall n, length rest <= n -> In z (findall n rest)) ->
  forall n, length (u ++ rpar :: "s"%char :: rest) <= n -> In z (findall n (u ++ rpar :: "s"%char :: rest)).
Proof.
  intros N H. induction u as [|x u IH]; intros n L.
  - cbn [app length] in *. destruct n as [|[|n]]; try lia. rewrite findall_skip by (apply optsubst_not_percent; discriminate).
    rewrite findall_skip by (apply optsubst_not_percent; discriminate). apply H. lia.
  - cbn [app length] in *. destruct n as [|n]; [lia|]. cbn [findall].
    destruct (optsubst (x :: u ++ rpar :: "s"%char :: rest)) as [[[sec opt] r]|] eqn:E.
    + apply optsubst_some in E as (E & C & Nr). right.
      assert (R : r = rest).
      { change (percent :: lpar :: (sec ++ slash :: opt) ++ rpar :: "s"%char :: r) with ((percent :: lpar :: (sec ++ slash :: opt)) ++ rpar :: "s"%char :: r) in E.
        change (x :: u ++ rpar :: "s"%char :: rest) with ((x :: u) ++ rpar :: "s"%char :: rest) in E. apply first_rpar in E as [_ E].
        - now injection E as ->.
        - exact N.
        - intros [I|[I|I]]; try discriminate. now apply cross_not_rpar in I. }
      subst r. apply H. rewrite app_length in L. cbn [length] in L. lia.
    + apply IH; [|lia]. intros I. apply N. now right.
Qed.
Lemma written_ref n rest : written (Ref n) ++ rest = percent :: lpar :: n ++ rpar :: "s"%char :: rest.
Proof. cbn [written]. rewrite <- !app_assoc. reflexivity. Qed.
Lemma findall_refs nm sec opt tail : is_cross nm sec opt -> forall ps, Forall well_written ps -> In (Ref nm) ps ->
  (forall a b, flat_map written ps ++ tail <> a ++ tx "%%(" ++ b) ->
  forall n, length (flat_map written ps ++ tail) <= n -> In (sec, opt) (findall n (flat_map written ps ++ tail)).
Proof.
  intros C. induction ps as [|p ps IH]; intros F I T n; [destruct I|]. inversion F as [|? ? W F']; subst. cbn [flat_map]. rewrite <- app_assoc.
  assert (T' : forall a b, flat_map written ps ++ tail <> a ++ tx "%%(" ++ b).
  { intros a b E. apply (T (written p ++ a) b). cbn [flat_map]. rewrite <- !app_assoc. now rewrite E. }
  destruct I as [->|I].
  - rewrite written_ref. cbn [length]. intros L. destruct n as [|n]; [lia|]. cbn [findall]. destruct W as [_ W].
    replace (optsubst _) with (Some (sec, opt, flat_map written ps ++ tail)); [now left|]. symmetry. apply optsubst_some.
    destruct C as (-> & C). split; [reflexivity|]. split; [split; auto|]. intros I. apply W, in_app_iff. right. now right.
  - specialize (IH F' I T'). destruct p as [t| |m]; cbn [written].
    + apply findall_lit; auto.
    + cbn [tx list_ascii_of_string app length]. intros L. destruct n as [|[|n]]; try lia.
      rewrite findall_skip by (apply optsubst_not_lpar; discriminate).
      rewrite findall_skip; [apply IH; lia|]. destruct (flat_map written ps ++ tail) as [|x r] eqn:E; [reflexivity|].
      apply optsubst_not_lpar. intros ->. apply (T [] r). cbn [flat_map]. rewrite <- app_assoc, E. reflexivity.
    + change (tx "%(" ++ m ++ tx ")s") with (written (Ref m)). rewrite written_ref. destruct W as [_ W].
      change (percent :: lpar :: m ++ rpar :: "s"%char :: flat_map written ps ++ tail) with ((percent :: lpar :: m) ++ rpar :: "s"%char :: flat_map written ps ++ tail).
      apply findall_inside; auto. intros [I'|[I'|I']]; try discriminate. now apply W.
Qed.

(** ** Mapping *)
Definition mapped (sc : text -> option text) (m : cmap) : Prop :=
  forall k, lower k = k -> mget m k = sc k \/ (mget m k = None /\ exists sec opt, is_cross k sec opt).
Lemma lower_cross sec opt : lower (sec ++ slash :: opt) = sec ++ slash :: opt -> lower sec = sec /\ lower opt = opt.
Proof.
  unfold lower. rewrite map_app. cbn [map]. intros H.
  assert (L : length (map lower_char sec) = length sec) by apply map_length.
  apply (f_equal (fun l => (firstn (length sec) l, skipn (S (length sec)) l))) in H.
  assert (G : forall (a b : text) x, length a = length sec -> firstn (length sec) (a ++ x :: b) = a /\ skipn (S (length sec)) (a ++ x :: b) = b).
  { intros a b x La. rewrite <- La. split.
    - rewrite firstn_app, Nat.sub_diag, firstn_all. cbn. apply app_nil_r.
    - rewrite skipn_app. replace (S (length a) - length a) with 1 by lia. rewrite skipn_all2 by lia. reflexivity. }
  destruct (G (map lower_char sec) (map lower_char opt) (lower_char slash) L) as [G1 G2]. destruct (G sec opt slash eq_refl) as [G3 G4].
  rewrite G1, G2, G3, G4 in H. injection H as H1 H2. auto.
Qed.
Lemma foreign_far c section sec opt : lower sec = sec -> foreign c section sec opt = far c section sec opt.
Proof.
  intros L. unfold foreign, far. rewrite L. destruct (eqb sec (tx "default")); [reflexivity|]. cbn [negb]. destruct (eqb sec (tx "known")).
  - assert (H : forall (k : text) u, match dget k (sections c) with Some s => match dget opt s with Some v => Some v | None => u end | None => u end
        = first_some (value_of c k opt) u).
    { intros k u. unfold value_of. destruct (dget k (sections c)) as [s|]; [destruct (dget opt s); reflexivity|reflexivity]. }
    exact (H _ _).
  - unfold value_of. destruct (dget sec (sections c)) as [s|]; [destruct (dget opt s); reflexivity|reflexivity].
Qed.
Section Mapped.
  Context (c : config) (section : text) (vars : dict text text).
  Let sc := the_scope c section vars.
  Definition sought (so : text * text) : Prop := is_cross (fst so ++ slash :: snd so) (fst so) (snd so).
  Lemma scope_cross sec opt : is_cross (sec ++ slash :: opt) sec opt -> own c section vars (sec ++ slash :: opt) = None ->
    sc (sec ++ slash :: opt) = far c section sec opt.
  Proof.
    intros C O. symmetry. apply names_the_scope. eapply n_cross; eauto using far_elsewhere.
    intros E. apply cross_slash in C. rewrite E in C. cbn in C. repeat (destruct C as [C|C]; [discriminate|]). destruct C.
  Qed.
  Lemma map_one_mapped m so : sought so -> mapped sc m -> (forall k, mget m k = None -> own c section vars k = None) ->
    mapped sc (map_one c section m so) /\ (forall k, mget (map_one c section m so) k = None -> mget m k = None) /\
    (forall k, lower k = k -> mget m k = sc k -> mget (map_one c section m so) k = sc k) /\
    (lower (fst so ++ slash :: snd so) = fst so ++ slash :: snd so -> mget (map_one c section m so) (fst so ++ slash :: snd so) = sc (fst so ++ slash :: snd so)).
  Proof.
    intros C M O. destruct so as [sec opt]. unfold sought in C. cbn [fst snd] in *. unfold map_one. cbn [fst snd]. set (k0 := sec ++ slash :: opt) in *.
    destruct (mget m k0) as [w|] eqn:E.
    { repeat split; auto. intros L. destruct (M k0 L) as [H|[H _]]; congruence. }
    assert (S0 : lower k0 = k0 -> sc k0 = foreign c section sec opt).
    { intros L. destruct (lower_cross sec opt L) as [L1 L2]. rewrite foreign_far by exact L1. apply scope_cross; auto. }
    destruct (foreign c section sec opt) as [v|] eqn:Fo.
    - assert (G : forall k, lower k = k -> mget m k = sc k -> mget (mset m k0 v) k = sc k).
      { intros k L Q. destruct (eqb_spec k0 k) as [<-|N]; [rewrite mget_mset_same; now rewrite S0|now rewrite mget_mset_other]. }
      repeat split; auto.
      + intros k L. destruct (eqb_spec k0 k) as [<-|N]; [left; rewrite mget_mset_same; now rewrite S0|]. rewrite mget_mset_other by exact N. now apply M.
      + intros k Q. destruct (eqb_spec k0 k) as [<-|N]; [exact E|]. now rewrite mget_mset_other in Q.
      + intros L. rewrite mget_mset_same. now rewrite S0.
    - repeat split; auto. intros L. rewrite E. now rewrite S0.
  Qed.
  Lemma map_fold l : forall m, Forall sought l -> mapped sc m -> (forall k, mget m k = None -> own c section vars k = None) ->
    let m1 := fold_left (map_one c section) l m in
    mapped sc m1 /\ (forall k, mget m1 k = None -> own c section vars k = None) /\
    (forall k, lower k = k -> mget m k = sc k -> mget m1 k = sc k) /\
    (forall sec opt, In (sec, opt) l -> lower (sec ++ slash :: opt) = sec ++ slash :: opt -> mget m1 (sec ++ slash :: opt) = sc (sec ++ slash :: opt)).
  Proof.
    induction l as [|so l IH]; intros m F M O; cbn [fold_left]; cbv zeta.
    - repeat split; auto. intros sec opt [].
    - inversion F as [|? ? F1 F2]; subst. destruct (map_one_mapped m so F1 M O) as (M1 & O1 & K1 & S1).
      destruct (IH (map_one c section m so) F2 M1) as (M2 & O2 & K2 & S2); [intros k Q; apply O; now apply O1|].
      split; [exact M2|]. split; [exact O2|]. split; [intros k L Q; apply K2; auto|].
      intros sec opt [->|I] L; [apply K2; auto|auto].
  Qed.
  Lemma findall_sought : forall n s, Forall sought (findall n s).
  Proof.
    induction n as [|n IH]; intros s; [constructor|]. destruct s as [|x t]; [constructor|]. cbn [findall].
    destruct (optsubst (x :: t)) as [[[sec opt] r]|] eqn:E; [|apply IH]. constructor; [|apply IH]. apply optsubst_some in E as (_ & C & _). exact C.
  Qed.
  Lemma map_section m v : mapped sc m -> (forall k, mget m k = None -> own c section vars k = None) ->
    let m1 := map_section_options c section v m in
    mapped sc m1 /\ (forall k, mget m1 k = None -> own c section vars k = None) /\
    (forall ps tail, v = flat_map written ps ++ tail -> Forall well_written ps -> tidy v -> forall n, In (Ref n) ps -> mget m1 (lower n) = sc (lower n)).
  Proof.
    intros M O m1. destruct (map_fold (findall (length v) v) m (findall_sought _ _) M O) as (M1 & O1 & K1 & S1).
    change (fold_left (map_one c section) (findall (length v) v) m) with m1 in *.
    split; [exact M1|]. split; [exact O1|]. intros ps tail E W [T1 T2] n I.
    destruct (M1 (lower n) (lower_idem n)) as [Q|[Q (sec & opt & C)]]; [exact Q|].
    assert (L : lower n = n).
    { pose proof (cross_slash _ _ _ C) as Sl. apply lower_slash in Sl. apply in_split in I as (p1 & p2 & ->).
      apply (T2 (flat_map written p1) n (flat_map written p2 ++ tail)).
      - rewrite E. rewrite flat_map_app. cbn [flat_map]. rewrite <- !app_assoc. cbn [written]. rewrite <- !app_assoc. reflexivity.
      - apply Forall_app in W as [_ W]. inversion W as [|? ? W1 _]; subst. cbn in W1. apply W1.
      - exact Sl. }
    rewrite L in C |- *. assert (E' : n = sec ++ slash :: opt) by (destruct C as (E' & _); exact E').
    rewrite E' in C, I, L |- *. apply S1; [|exact L].
    rewrite E. apply findall_refs with (nm := sec ++ slash :: opt); auto. rewrite <- E. exact T1.
  Qed.
End Mapped.
