(** Proofs about values with references: errors, what a value does not depend on, one reference, get_ex. *)
From Coq Require Import Arith.
From Verif Require Import Base Text Config_Model Config_Spec Config_Proofs Interp_Model Interp_Spec Interp_Proofs Interp_Proofs2.
Local Open Scope string_scope.
Local Open Scope list_scope.
Local Open Scope nat_scope.

Lemma loop_known_errors go m : (forall w, ~ unknown (go w)) -> forall n acc rest, ~ unknown (loop n go m acc rest).
Proof.
  intros G. assert (V : forall a, ~ unknown (Val a)) by (intros a [H|H]; discriminate). assert (M : ~ unknown (Err Malformed)) by (intros [H|H]; discriminate).
  induction n as [|n IH]; intros acc rest; cbn [loop]; auto.
  destruct (span _ rest) as [a [|x r]]; auto. destruct r as [|y r]; auto. destruct (eqb y percent); auto. destruct (eqb y lpar); auto.
  destruct (span _ r) as [[|z v] q]; auto. destruct q as [|q0 [|e q]]; auto. destruct (eqb e "s"%char); auto. cbv zeta.
  destruct (mget m (lower (z :: v))) as [w|]; [|intros [H|H]; discriminate]. destruct (inb percent w); auto. destruct (go w) as [t|er] eqn:E; auto. rewrite <- E. apply G.
Qed.
Lemma interpolate_known_errors : forall d c section v m, ~ unknown (interpolate d c section v m).
Proof.
  assert (V : forall a, ~ unknown (Val a)) by (intros a [H|H]; discriminate).
  induction d as [|d IH]; intros c section v m; cbn [interpolate]; destruct section as [|s0 s]; auto; destruct (mget m module_name); auto; cbv zeta.
  - intros [H|H]; discriminate.
  - apply loop_known_errors. intros w. apply IH.
Qed.
Lemma get_errors c section o raw vars :
  (get c section o raw vars = Err NoSection <-> ~ there c section) /\
  (get c section o raw vars = Err NoOption <-> there c section /\ own c section vars (lower o) = None).
Proof.
  pose proof (unify_there c section vars) as U. unfold get. destruct (unify c section vars) as [m|] eqn:E.
  - assert (T : there c section) by (apply U; eauto). rewrite (unify_get _ _ _ _ E). destruct (own c section vars (lower o)) as [v|] eqn:O.
    + assert (X : ~ unknown (if raw then Val v else interpolate 10 c section v m)).
      { destruct raw; [intros [H|H]; discriminate|apply interpolate_known_errors]. }
      split; split; intros H; try (destruct X; unfold unknown; tauto); try tauto. destruct H. discriminate.
    + split; split; intros H; try discriminate; try tauto.
  - assert (T : ~ there c section) by (intros T; apply U in T as [m M]; discriminate). split; split; intros H; try discriminate; tauto.
Qed.
Lemma get_raw c section o vars v : get c section o true vars = Val v <-> there c section /\ own c section vars (lower o) = Some v.
Proof.
  pose proof (unify_there c section vars) as U. unfold get. destruct (unify c section vars) as [m|] eqn:E.
  - assert (T : there c section) by (apply U; eauto). rewrite (unify_get _ _ _ _ E). destruct (own c section vars (lower o)) as [w|].
    + split; [intros H; injection H as ->; auto|intros [_ H]; now injection H as ->].
    + split; [discriminate|intros [_ H]; discriminate].
  - split; [discriminate|]. intros [T _]. apply U in T as [m M]. discriminate.
Qed.

(** ** What a value does not depend on *)
Definition alike (m m' : cmap) : Prop := forall k, ~ In slash k -> mget m k = mget m' k.
Definition locals (m : cmap) : Prop := forall k w, ~ In slash k -> mget m k = Some w -> local_text w.
Lemma local_suffix u v : local_text (u ++ v) -> local_text v.
Proof. intros H a n b -> N. apply (H (u ++ a) n b); auto. now rewrite <- app_assoc. Qed.
Lemma loop_alike go go' m m' : alike m m' -> locals m -> (forall w, local_text w -> go w = go' w) ->
  forall n acc rest, local_text rest -> loop n go m acc rest = loop n go' m' acc rest.
Proof.
  intros A Lo G. induction n as [|n IH]; intros acc rest L; [reflexivity|]. cbn [loop].
  destruct (span_spec (fun c => negb (eqb c percent)) rest) as (a & b & E & -> & F & H). rewrite E. destruct b as [|x r]; [reflexivity|].
  destruct r as [|y r]; [reflexivity|]. destruct (eqb_spec y percent) as [->|N1].
  { apply IH. apply local_suffix in L. now apply (local_suffix [x; percent]) in L. }
  destruct (eqb_spec y lpar) as [->|N2]; [|reflexivity].
  destruct (span_spec (fun c => negb (eqb c rpar)) r) as (v & q & E2 & -> & F2 & H2). rewrite E2. destruct v as [|z v]; [reflexivity|].
  destruct q as [|q0 [|e q]]; try reflexivity. destruct (eqb_spec e "s"%char) as [->|N3]; [|reflexivity]. cbv zeta.
  apply negb_false_iff, eqb_true in H as ->. apply negb_false_iff, eqb_true in H2 as ->.
  assert (Sl : ~ In slash (lower (z :: v))).
  { intros I. apply lower_slash in I. revert I. apply (L a (z :: v) q); [|now apply no_rpar]. reflexivity. }
  assert (Lq : local_text q).
  { apply local_suffix in L. apply (local_suffix [percent; lpar]) in L. apply (local_suffix (z :: v)) in L. now apply (local_suffix [rpar; "s"%char]) in L. }
  rewrite <- (A _ Sl). destruct (mget m (lower (z :: v))) as [w|] eqn:Ew; [|reflexivity]. destruct (inb percent w); [|now apply IH].
  rewrite (G w) by (eapply Lo; eauto). destruct (go' w); [now apply IH|reflexivity].
Qed.
Lemma map_fold_alike c section l m k : Forall sought l -> ~ In slash k -> mget (fold_left (map_one c section) l m) k = mget m k.
Proof.
  intros F N. revert m. induction F as [|[sec opt] l C F IH]; intros m; [reflexivity|]. cbn [fold_left]. rewrite IH. unfold map_one. cbn [fst snd].
  destruct (mget m (sec ++ slash :: opt)); [reflexivity|]. destruct (foreign c section sec opt); [|reflexivity]. apply mget_mset_other.
  intros <-. apply N. apply in_app_iff. right. now left.
Qed.
Lemma interpolate_alike c c' section : local_text section -> forall d v m m', local_text v -> alike m m' -> locals m ->
  interpolate d c section v m = interpolate d c' section v m'.
Proof.
  intros Ls. induction d as [|d IH]; intros v m m' L A Lo; cbn [interpolate].
  all: rewrite <- (A module_name) by (intros I; apply inb_In in I; vm_compute in I; discriminate).
  all: destruct section as [|s0 s] eqn:Es; [reflexivity|]; rewrite <- Es in *; destruct (mget m module_name); [reflexivity|]; cbv zeta; try reflexivity.
  assert (K : forall e n k, ~ In slash k -> mget (map_section_options e section v (mset n (tx "__name__") section)) k = mget (mset n (tx "__name__") section) k).
  { intros e n k N. apply map_fold_alike; [apply findall_sought|exact N]. }
  apply loop_alike.
  - intros k N. rewrite !K by exact N. destruct (eqb_spec (tx "__name__") k) as [<-|Nk]; [now rewrite !mget_mset_same|]. rewrite !mget_mset_other by exact Nk. now apply A.
  - intros k w N. rewrite K by exact N. destruct (eqb_spec (tx "__name__") k) as [<-|Nk]; [rewrite mget_mset_same; intros Q; injection Q as <-; exact Ls|]. rewrite mget_mset_other by exact Nk. now apply Lo.
  - intros w Lw. apply IH; auto.
    + intros k N. rewrite !K by exact N. destruct (eqb_spec (tx "__name__") k) as [<-|Nk]; [now rewrite !mget_mset_same|]. rewrite !mget_mset_other by exact Nk. now apply A.
    + intros k u N. rewrite K by exact N. destruct (eqb_spec (tx "__name__") k) as [<-|Nk]; [rewrite mget_mset_same; intros Q; injection Q as <-; exact Ls|]. rewrite mget_mset_other by exact Nk. now apply Lo.
  - exact L.
Qed.

(** ** One reference *)
Lemma first_percent (a b x y : text) : ~ In percent a -> ~ In percent b -> a ++ percent :: x = b ++ percent :: y -> a = b /\ x = y.
Proof.
  revert b. induction a as [|c a IH]; intros [|d b] Na Nb E; cbn in E.
  - injection E as ->. auto.
  - injection E as <- _. destruct Nb. now left.
  - injection E as -> _. destruct Na. now left.
  - injection E as -> E. destruct (IH b) as [-> ->]; auto; intros I; [apply Na|apply Nb]; now right.
Qed.
Lemma one_percent (a x b y : text) : ~ In percent a -> ~ In percent x -> a ++ percent :: x = b ++ percent :: y -> a = b /\ x = y.
Proof.
  revert b. induction a as [|c a IH]; intros [|d b] Na Nx E; cbn in E.
  - injection E as ->. auto.
  - injection E as <- E. destruct Nx. rewrite E. apply in_app_iff. right. now left.
  - injection E as -> _. destruct Na. now left.
  - injection E as -> E. destruct (IH b) as [-> ->]; auto. intros I. apply Na. now right.
Qed.
Lemma one_tidy a n b : ~ In percent a -> ~ In percent b -> ~ In percent n -> ~ In rpar n -> lower n = n -> tidy (a ++ written (Ref n) ++ b).
Proof.
  intros Na Nb Nn Nr L. rewrite written_ref.
  assert (X : ~ In percent (lpar :: n ++ rpar :: "s"%char :: b)).
  { intros [I|I]; [discriminate|]. apply in_app_iff in I as [I|[I|[I|I]]]; auto; discriminate. }
  split.
  - intros x y E. apply (one_percent a _ x (percent :: lpar :: y)) in E as [_ E]; auto. discriminate.
  - intros x k y E Nk _. apply (one_percent a _ x (lpar :: k ++ rpar :: "s"%char :: y)) in E as [_ E]; auto. injection E as E. apply first_rpar in E as [<- _]; auto.
Qed.
Lemma get_one c section vars o a n b : section <> [] -> no_module c section vars -> there c section ->
  own c section vars (lower o) = Some (a ++ written (Ref n) ++ b) -> ~ In percent a -> ~ In percent b -> ~ In percent n -> well_written (Ref n) -> lower n = n ->
  (forall w, the_scope c section vars n = Some w -> ~ In percent w) ->
  get c section o false vars = match the_scope c section vars n with Some w => Val (a ++ w ++ b) | None => Err (Missing n) end.
Proof.
  intros Ne NoM Th O Na Nb Nn W L P. apply (unify_there c section vars) in Th as [m U]. unfold get. rewrite U, (unify_get _ _ _ _ U), O.
  pose proof (unify_level c section vars m U) as At. rewrite (interpolate_eq _ _ _ _ _ Ne (level_module c section vars NoM m At)). cbv zeta.
  destruct (level_name c section vars m At) as [M0 O0]. destruct (map_section c section vars _ (a ++ written (Ref n) ++ b) M0 O0) as (_ & _ & R1).
  set (m1 := map_section_options c section _ _) in *.
  assert (Q : mget m1 n = the_scope c section vars n).
  { rewrite <- L at 1. rewrite (R1 [Lit a; Ref n; Lit b] []); [now rewrite L| | | |right; now left].
    - cbn [flat_map]. rewrite !app_nil_r. reflexivity.
    - repeat constructor; auto; apply W.
    - apply one_tidy; auto. apply W. }
  rewrite loop_lit by exact Na. rewrite loop_ref by exact W. rewrite L, Q. destruct (the_scope c section vars n) as [w|]; [|reflexivity].
  specialize (P w eq_refl). destruct (inb percent w) eqn:I; [apply inb_In in I; now destruct P|].
  destruct (length (a ++ written (Ref n) ++ b)) as [|k] eqn:Len.
  - rewrite !app_length in Len. rewrite <- (app_nil_r (written (Ref n))), written_ref in Len. cbn [length] in Len. lia.
  - rewrite <- (app_nil_r b) at 1. rewrite loop_lit by exact Nb. cbn [loop span app]. now rewrite app_nil_r, <- app_assoc.
Qed.

(** ** get_ex *)
Lemma optname_some o sec opt : optname o = Some (sec, opt) <-> ex_name o sec opt.
Proof.
  assert (Ch : forall c, negb (is_space c) && negb (eqb c ">"%char) = true <-> is_space c = false /\ c <> ">"%char).
  { intros c. rewrite andb_true_iff, !negb_true_iff, eqb_neq. tauto. }
  assert (FCh : forall l, Forall (fun c => negb (is_space c) && negb (eqb c ">"%char) = true) l <-> Forall (fun c => is_space c = false /\ c <> ">"%char) l).
  { intros l. split; apply Forall_impl; intros c; apply Ch. }
  assert (FS : forall l, Forall (fun c => is_secname c = true) l <-> Forall (fun c => is_word c = true \/ c = "-"%char) l).
  { intros l. split; apply Forall_impl; intros c; apply secname_iff. }
  unfold optname. split.
  - destruct (span_spec is_secname o) as (a & b & E & -> & F & H). rewrite E. destruct a as [|x a]; [discriminate|]. destruct b as [|sl r]; [discriminate|].
    destruct (eqb_spec sl slash) as [->|]; [|discriminate].
    destruct (span_spec (fun c => negb (is_space c) && negb (eqb c ">"%char)) r) as (u & w & E2 & -> & F2 & H2). rewrite E2.
    destruct u as [|y u]; [discriminate|]. destruct w as [|e [|? ?]]; try discriminate.
    + intros Q. injection Q as <- <-. rewrite app_nil_r. split; [now left|]. split; [discriminate|]. split; [discriminate|]. split; [now apply FS|now apply FCh].
    + destruct (eqb_spec e "010"%char) as [->|]; [|discriminate]. intros Q. injection Q as <- <-. split; [right; now rewrite <- app_assoc|].
      split; [discriminate|]. split; [discriminate|]. split; [now apply FS|now apply FCh].
  - intros (E & N1 & N2 & F1 & F2). apply FS in F1. apply FCh in F2.
    assert (S1 : forall r, span is_secname (sec ++ slash :: r) = (sec, slash :: r)) by (intros r; now apply span_unique).
    destruct E as [->| ->]; [|rewrite <- app_assoc; cbn [app]]; change "/"%char with slash; rewrite S1; destruct sec as [|x sec]; try congruence; rewrite eqb_refl.
    + rewrite <- (app_nil_r opt) at 1. rewrite span_unique; auto. destruct opt; [congruence|reflexivity].
    + rewrite span_unique; [|exact F2|reflexivity]. destruct opt; [congruence|reflexivity].
Qed.
Lemma first_of_known c opt raw fb : forall secs, first_known (map (fun s => get c s opt raw []) secs ++ [fb]) (first_of c opt raw secs fb).
Proof.
  induction secs as [|s secs IH]; cbn [map app first_of]; [apply f_last|].
  destruct (get c s opt raw []) as [t|[]] eqn:E; try (apply f_here; intros [H|H]; discriminate); apply f_next; auto; [left|right]; reflexivity.
Qed.
Lemma first_known_fun l x y : first_known l x -> first_known l y -> x = y.
Proof.
  intros H. revert y. induction H as [r l N|r l x U H IH|r]; intros y Hy.
  - inversion Hy; subst; auto. contradiction.
  - inversion Hy; subst; auto; [contradiction|]. inversion H.
  - inversion Hy as [| ? ? ? ? Q|]; subst; auto. inversion Q.
Qed.
Lemma get_ex_named c section o raw vars sec opt secs r : ex_name o sec opt -> asks section sec secs ->
  (get_ex c section o raw vars = r <-> first_known (map (fun s => get c s opt raw []) secs ++ [get c section o raw vars]) r).
Proof.
  intros E A. unfold get_ex.
  assert (I : inb slash o = true). { apply inb_In. destruct E as [[->| ->] _]; [|apply in_app_iff; left]; apply in_app_iff; right; now left. }
  rewrite I. apply optname_some in E. rewrite E. cbv zeta.
  replace (if eqb (lower sec) (tx "known") then _ else _) with secs.
  - split; [intros <-; apply first_of_known|]. intros H. eapply first_known_fun; [apply first_of_known|exact H].
  - destruct A as [->| ->|N1 N2]; try reflexivity. apply eqb_neq in N1, N2. now rewrite N1, N2.
Qed.
Lemma get_ex_plain c section o raw vars : (forall sec opt, ~ ex_name o sec opt) -> get_ex c section o raw vars = get c section o raw vars.
Proof.
  intros N. unfold get_ex. destruct (inb slash o); [|reflexivity]. destruct (optname o) as [[sec opt]|] eqn:E; [|reflexivity]. apply optname_some in E. now apply N in E.
Qed.
