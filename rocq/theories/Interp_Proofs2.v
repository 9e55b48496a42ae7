(** Proofs about values with references: the loop and its levels. *)
From Coq Require Import Arith.
From Verif Require Import Base Text Config_Model Config_Spec Config_Proofs Interp_Model Interp_Spec Interp_Proofs.
Local Open Scope string_scope.
Local Open Scope list_scope.
Local Open Scope nat_scope.

(** ** Reading a text *)
Lemma percent_cases r : (exists q, r = percent :: q) \/ (exists n q, well_written (Ref n) /\ percent :: r = written (Ref n) ++ q) \/ malformed (percent :: r).
Proof.
  destruct r as [|x r].
  - right. right. exists []. split; [reflexivity|]. split; [discriminate|]. intros n q _ E. rewrite written_ref in E. discriminate.
  - destruct (eqb_spec x percent) as [->|Nx]; [left; now exists r|]. right.
    destruct (eqb_spec x lpar) as [->|Nl].
    + destruct (span_spec (fun c => negb (eqb c rpar)) r) as (a & b & E & -> & F & H).
      destruct a as [|y a], b as [|z [|e b]].
      1-5: right; eexists; (split; [reflexivity|]); (split; [intros q Q; discriminate|]); intros n q [W1 W2] Q; rewrite written_ref in Q; injection Q as Q;
        cbn [app] in Q.
      * destruct n; [congruence|discriminate].
      * destruct n as [|c n]; [congruence|]. injection Q as -> Q. destruct n; discriminate.
      * destruct n as [|c n]; [congruence|]. injection Q as <- Q. apply W2. left. apply negb_false_iff, eqb_true in H. now subst.
      * rewrite app_nil_r in Q. apply no_rpar in F. apply F. rewrite Q. apply in_app_iff. right. now left.
      * apply negb_false_iff, eqb_true in H as ->. apply (first_rpar (y :: a)) in Q as [_ Q]; [discriminate|now apply no_rpar|exact W2].
      * apply negb_false_iff, eqb_true in H as ->. destruct (eqb_spec e "s"%char) as [->|Ne].
        -- left. exists (y :: a), b. split; [split; [discriminate|now apply no_rpar]|]. rewrite written_ref. reflexivity.
        -- right. exists (lpar :: (y :: a) ++ rpar :: e :: b). split; [reflexivity|]. split; [intros q Q; discriminate|]. intros n q [W1 W2] Q. rewrite written_ref in Q. injection Q as Q.
           apply (first_rpar (y :: a)) in Q as [_ Q]; [injection Q as Q _; congruence|now apply no_rpar|exact W2].
    + right. exists (x :: r). split; [reflexivity|]. split; [intros q Q; injection Q as Q _; now apply Nx|]. intros n q _ Q. rewrite written_ref in Q. injection Q as Q _. now apply Nl.
Qed.
Lemma parse : forall n v, length v <= n -> exists ps tail, v = flat_map written ps ++ tail /\ Forall well_written ps /\ (tail = [] \/ malformed tail).
Proof.
  induction n as [|n IH]; intros v L.
  - destruct v; [|cbn in L; lia]. exists [], []. auto.
  - destruct (span_spec (fun c => negb (eqb c percent)) v) as (a & b & _ & -> & F & H). apply no_percent in F. destruct b as [|x r].
    + exists [Lit a], []. cbn [flat_map written]. rewrite !app_nil_r. split; [reflexivity|]. split; auto.
    + apply negb_false_iff, eqb_true in H as ->. rewrite app_length in L. cbn [length] in L.
      destruct (percent_cases r) as [[q ->]|[(m & q & W & E)|M]].
      * destruct (IH q) as (ps & tail & -> & Fp & T); [cbn in L; lia|]. exists (Lit a :: Percent :: ps), tail. split; [|split; [repeat constructor; auto|exact T]].
        cbn [flat_map written]. rewrite <- !app_assoc. reflexivity.
      * assert (Lq : length q <= n).
        { apply (f_equal (@length ascii)) in E. rewrite written_ref in E. cbn [length] in E. rewrite app_length in E. cbn [length] in E. lia. }
        destruct (IH q Lq) as (ps & tail & -> & Fp & T). exists (Lit a :: Ref m :: ps), tail. split; [|split; [constructor; [exact F|]; constructor; auto|exact T]].
        rewrite E. cbn [flat_map]. rewrite <- !app_assoc. reflexivity.
      * exists [Lit a], (percent :: r). cbn [flat_map written]. rewrite app_nil_r. split; [reflexivity|]. split; auto.
Qed.

(** ** Every text means something *)
Lemma in_turn_exists (of : piece -> res -> Prop) : (forall p, exists r, of p r) -> forall ps, exists r, in_turn of ps r.
Proof.
  intros H. induction ps as [|p ps [r IH]]; [eexists; constructor|]. destruct (H p) as [[a|e] Hp]; [|exists (Err e); now apply it_err].
  destruct r as [b|e]; eexists; [eapply it_val|eapply it_later]; eauto.
Qed.
Lemma means_exists scope : forall d v, exists r, means scope d v r.
Proof.
  induction d as [|d IH]; intros v; [eexists; constructor|].
  assert (P : forall p, exists r, stands scope d p r).
  { intros [t| |n]; [eexists; constructor|eexists; constructor|]. destruct (scope (lower n)) as [w|] eqn:E; [|eexists; now apply s_missing].
    destruct (inb percent w) eqn:I.
    - apply inb_In in I. destruct (IH w) as [r H]. exists r. eapply s_nested; eauto.
    - exists (Val w). apply s_plain; auto. intros J. apply inb_In in J. change "%"%char with percent in J. congruence. }
  destruct (parse (length v) v (le_n _)) as (ps & tail & -> & W & T). destruct (in_turn_exists _ P ps) as [r H]. destruct T as [->|T].
  - rewrite app_nil_r. exists r. now constructor.
  - destruct r as [a|e]; eexists; [eapply m_bad|eapply m_err]; eauto.
Qed.

(** ** The loop *)
Lemma loop_lit go m t : ~ In percent t -> forall n acc rest, loop (S n) go m acc (t ++ rest) = loop (S n) go m (acc ++ t) rest.
Proof.
  intros N n acc rest. cbn [loop]. destruct (span_spec (fun c => negb (eqb c percent)) rest) as (a & b & E & -> & F & H). rewrite E.
  rewrite app_assoc, span_unique; [|apply Forall_app; split; [now apply no_percent|exact F]|exact H].
  destruct b as [|x r]; [now rewrite app_assoc|].
  assert (A : forall u, acc ++ (t ++ a) ++ u = (acc ++ t) ++ a ++ u) by (intros u; now rewrite <- !app_assoc).
  destruct r as [|y r]; [reflexivity|]. rewrite A. destruct (eqb y percent); [reflexivity|]. destruct (eqb y lpar); [|reflexivity].
  destruct (span (fun c => negb (eqb c rpar)) r) as [[|z v] q]; [reflexivity|]. destruct q as [|q0 [|e q]]; try reflexivity.
  destruct (eqb e "s"%char); [|reflexivity]. cbv zeta. destruct (mget m (lower (z :: v))) as [w|]; [|reflexivity]. rewrite A.
  destruct (inb percent w); [|reflexivity]. destruct (go w) as [u|]; [|reflexivity]. now rewrite A.
Qed.
Lemma span_percent r : span (fun c => negb (eqb c percent)) (percent :: r) = ([], percent :: r).
Proof. reflexivity. Qed.
Lemma loop_percent go m n acc rest : loop (S n) go m acc (written Percent ++ rest) = loop n go m (acc ++ [percent]) rest.
Proof. reflexivity. Qed.
Lemma loop_ref go m n acc nm rest : well_written (Ref nm) -> loop (S n) go m acc (written (Ref nm) ++ rest) =
  match mget m (lower nm) with
  | None => Err (Missing (lower nm))
  | Some w => if inb percent w then match go w with Val t => loop n go m (acc ++ t) rest | Err e => Err e end else loop n go m (acc ++ w) rest
  end.
Proof.
  intros [W1 W2]. rewrite written_ref. cbn [loop]. rewrite span_percent.
  change (eqb lpar percent) with false. cbv iota. change (eqb lpar lpar) with true. cbv iota.
  rewrite span_unique; [|now apply no_rpar|reflexivity]. destruct nm as [|y v]; [congruence|]. change (eqb "s"%char "s"%char) with true. cbv iota zeta.
  destruct (mget m (lower (y :: v))) as [w|]; [|reflexivity]. cbn [app]. reflexivity.
Qed.
Lemma loop_malformed go m n acc tail : malformed tail -> loop (S n) go m acc tail = Err Malformed.
Proof.
  intros (r & -> & N1 & N2). cbn [loop]. change "%"%char with percent in *. rewrite span_percent. destruct r as [|x r]; [reflexivity|].
  destruct (eqb_spec x percent) as [->|Nx]; [now destruct (N1 r)|]. destruct (eqb_spec x lpar) as [->|Nl]; [|reflexivity].
  destruct (span_spec (fun c => negb (eqb c rpar)) r) as (a & b & E & -> & F & H). rewrite E.
  destruct a as [|y a]; [reflexivity|]. destruct b as [|z [|e b]]; try reflexivity. destruct (eqb_spec e "s"%char) as [->|Ne]; [|reflexivity]. exfalso.
  apply negb_false_iff, eqb_true in H as ->. apply (N2 (y :: a) b); [split; [discriminate|now apply no_rpar]|]. now rewrite written_ref.
Qed.
Section Loop.
  Context (scope : text -> option text) (d : nat) (go : text -> res) (m : cmap) (tail : text).
  Context (Tail : tail = [] \/ malformed tail).
  Context (Go : forall k w r, scope k = Some w -> In percent w -> means scope d w r -> go w = r).
  Lemma loop_turn ps r : in_turn (stands scope d) ps r -> Forall well_written ps -> (forall n, In (Ref n) ps -> mget m (lower n) = scope (lower n)) ->
    forall n acc, length (flat_map written ps ++ tail) < n ->
    loop n go m acc (flat_map written ps ++ tail) =
      match r with Err e => Err e | Val a => match tail with [] => Val (acc ++ a) | _ => Err Malformed end end.
  Proof.
    intros H. induction H as [|p ps e Hp|p ps a b Hp Hps IH|p ps a e Hp Hps IH]; intros W M n acc L.
    - cbn [flat_map app] in *. destruct n as [|n]; [lia|]. destruct Tail as [->|T].
      + reflexivity.
      + rewrite loop_malformed by exact T. destruct tail; [|reflexivity]. destruct T as (r & E & _). discriminate.
    - inversion W as [|? ? W1 W2]; subst. cbn [flat_map] in *. rewrite <- app_assoc in *. destruct n as [|n]; [lia|].
      inversion Hp; subst.
      + rewrite loop_ref by exact W1. rewrite M by now left. match goal with H : scope _ = None |- _ => now rewrite H end.
      + rewrite loop_ref by exact W1. rewrite M by now left.
        match goal with S : scope _ = Some ?v, I : In _ ?v, Me : means _ _ ?v _ |- _ => rewrite S; change "%"%char with percent in I; pose proof (Go _ _ _ S I Me) as G;
          apply inb_In in I; rewrite I, G; reflexivity end.
    - inversion W as [|? ? W1 W2]; subst. cbn [flat_map] in *. rewrite <- app_assoc in *. destruct n as [|n]; [lia|].
      assert (M' : forall n, In (Ref n) ps -> mget m (lower n) = scope (lower n)) by (intros q I; apply M; now right). specialize (IH W2 M').
      inversion Hp; subst.
      + cbn [written] in *. rewrite loop_lit by exact W1. rewrite IH; [|rewrite app_length in L; lia]. destruct tail; [|reflexivity]. now rewrite app_assoc.
      + rewrite loop_percent. rewrite IH; [|cbn in L; lia]. destruct tail; [|reflexivity]. now rewrite <- app_assoc.
      + rewrite loop_ref by exact W1. rewrite M by now left.
        match goal with S : scope _ = Some ?v, I : ~ In _ ?v |- _ => rewrite S; destruct (inb percent v) eqn:Q; [apply inb_In in Q; now destruct I|] end.
        rewrite IH; [|rewrite app_length in L; rewrite <- (app_nil_r (written _)), written_ref in L; cbn [length] in L; lia]. destruct tail; [|reflexivity]. now rewrite app_assoc.
      + rewrite loop_ref by exact W1. rewrite M by now left.
        match goal with S : scope _ = Some ?v, I : In _ ?v, Me : means _ _ ?v _ |- _ => rewrite S; change "%"%char with percent in I; pose proof (Go _ _ _ S I Me) as G;
          apply inb_In in I; rewrite I, G end.
        rewrite IH; [|rewrite app_length in L; rewrite <- (app_nil_r (written _)), written_ref in L; cbn [length] in L; lia]. destruct tail; [|reflexivity]. now rewrite app_assoc.
    - inversion W as [|? ? W1 W2]; subst. cbn [flat_map] in *. rewrite <- app_assoc in *. destruct n as [|n]; [lia|].
      assert (M' : forall n, In (Ref n) ps -> mget m (lower n) = scope (lower n)) by (intros q I; apply M; now right). specialize (IH W2 M').
      inversion Hp; subst.
      + cbn [written] in *. rewrite loop_lit by exact W1. apply IH. rewrite app_length in L; lia.
      + rewrite loop_percent. apply IH. cbn in L; lia.
      + rewrite loop_ref by exact W1. rewrite M by now left.
        match goal with S : scope _ = Some ?v, I : ~ In _ ?v |- _ => rewrite S; destruct (inb percent v) eqn:Q; [apply inb_In in Q; now destruct I|] end.
        apply IH. rewrite app_length in L; rewrite <- (app_nil_r (written _)), written_ref in L; cbn [length] in L; lia.
      + rewrite loop_ref by exact W1. rewrite M by now left.
        match goal with S : scope _ = Some ?v, I : In _ ?v, Me : means _ _ ?v _ |- _ => rewrite S; change "%"%char with percent in I; pose proof (Go _ _ _ S I Me) as G;
          apply inb_In in I; rewrite I, G end.
        apply IH. rewrite app_length in L; rewrite <- (app_nil_r (written _)), written_ref in L; cbn [length] in L; lia.
  Qed.
End Loop.

(** ** All levels *)
Lemma interpolate_eq d c section v m : section <> [] -> mget m module_name = None -> interpolate d c section v m =
  let m1 := map_section_options c section v (mset m (tx "__name__") section) in
  match d with O => Err TooDeep | S d => loop (S (length v)) (fun w => interpolate d c section w m1) m1 [] v end.
Proof. intros N E. destruct d; cbn [interpolate]; rewrite E; destruct section; congruence. Qed.
Section Levels.
  Context (c : config) (section : text) (vars : dict text text).
  Context (Ne : section <> []) (Tidy : tidy_config c section vars) (NoM : no_module c section vars).
  Let sc := the_scope c section vars.
  Lemma given_In n v : given vars n = Some v -> exists k, In (k, v) vars.
  Proof.
    unfold given, last_of. destruct (rev _) as [|x l] eqn:E; [discriminate|]. intros Q. injection Q as ->.
    assert (I : In v (rev (map snd (filter (fun kv => eqb (lower (fst kv)) n) vars)))) by (rewrite E; now left).
    apply in_rev, in_map_iff in I as ([k w] & <- & I). apply filter_In in I as [I _]. now exists k.
  Qed.
  Lemma scope_tidy k w : sc k = Some w -> tidy w.
  Proof.
    destruct Tidy as (T0 & T1 & T2 & T3). intros H.
    assert (G : forall s o, first_some (value_of c s o) (dget o (defaults c)) = Some w -> tidy w).
    { intros s o Q. destruct (value_of c s o) eqn:E; cbn in Q; [injection Q as <-; eauto|eauto]. }
    pose proof (the_scope_names c section vars k) as N. fold sc in N. rewrite H in N. inversion N; subst; auto.
    - match goal with Q : first_some (given vars k) _ = Some w |- _ => destruct (given vars k) as [u|] eqn:Eg; cbn in Q;
        [injection Q as ->; apply given_In in Eg as [k' I]; eauto|eauto] end.
    - match goal with Q : elsewhere _ _ _ _ _ |- _ => inversion Q; subst; eauto end.
  Qed.
  Lemma scope_module k : sc k = own c section vars k \/ k = tx "__name__" \/ exists sec opt, is_cross k sec opt.
  Proof.
    unfold sc, the_scope. destruct (eqb_spec k (tx "__name__")) as [->|N]; auto. destruct (own c section vars k) eqn:E; auto.
    destruct (cross k) as [[sec opt]|] eqn:C; auto. apply cross_some in C. right. right. eauto.
  Qed.
  Definition at_level (m : cmap) : Prop :=
    (forall k, k <> tx "__name__" -> lower k = k -> mget m k = sc k \/ (mget m k = None /\ exists sec opt, is_cross k sec opt)) /\
    (forall k, mget m k = None -> own c section vars k = None).
  Lemma level_module m : at_level m -> mget m module_name = None.
  Proof.
    intros [M _]. assert (O : own c section vars module_name = None) by (unfold own; destruct NoM as (-> & -> & ->); reflexivity).
    assert (NC : forall sec opt, ~ is_cross module_name sec opt).
    { intros sec opt C. apply cross_slash, inb_In in C. vm_compute in C. discriminate. }
    destruct (M module_name) as [E|[E _]]; auto; [discriminate|]. rewrite E. destruct (scope_module module_name) as [->|[Q|(sec & opt & Q)]]; auto; [discriminate|now apply NC in Q].
  Qed.
  Lemma level_name m : at_level m -> mapped sc (mset m (tx "__name__") section) /\ (forall k, mget (mset m (tx "__name__") section) k = None -> own c section vars k = None).
  Proof.
    intros [M O]. split.
    - intros k L. destruct (eqb_spec (tx "__name__") k) as [<-|N]; [left; now rewrite mget_mset_same|]. rewrite mget_mset_other by exact N. apply M; auto.
    - intros k Q. destruct (eqb_spec (tx "__name__") k) as [<-|N]; [rewrite mget_mset_same in Q; discriminate|]. rewrite mget_mset_other in Q by exact N. auto.
  Qed.
  Lemma interpolate_means : forall d m v r, at_level m -> tidy v -> means sc d v r -> interpolate d c section v m = r.
  Proof.
    induction d as [|d IH]; intros m v r At T Me; rewrite (interpolate_eq _ _ _ _ _ Ne (level_module m At)); cbv zeta.
    - now inversion Me.
    - destruct (level_name m At) as [M0 O0]. destruct (map_section c section vars _ v M0 O0) as (M1 & O1 & R1).
      set (m1 := map_section_options c section v (mset m (tx "__name__") section)) in *.
      assert (At1 : at_level m1) by (split; [intros k _; apply M1|exact O1]).
      assert (Go : forall k w r, sc k = Some w -> In percent w -> means sc d w r -> interpolate d c section w m1 = r).
      { intros k w q Sk _ Mw. apply IH; auto. eapply scope_tidy; eauto. }
      inversion Me as [|d' ps r' W It|d' ps tail e W Mf It|d' ps tail a W Mf It]; subst.
      + rewrite <- (app_nil_r (flat_map written ps)). rewrite (loop_turn sc d _ m1 [] (or_introl eq_refl) Go ps r It W).
        * destruct r; reflexivity.
        * intros n I. apply (R1 ps []); auto. now rewrite app_nil_r.
        * lia.
      + rewrite (loop_turn sc d _ m1 tail (or_intror Mf) Go ps (Err e) It W); [reflexivity| |lia]. intros n I. apply (R1 ps tail); auto.
      + rewrite (loop_turn sc d _ m1 tail (or_intror Mf) Go ps (Val a) It W); [| |lia].
        * destruct tail; [|reflexivity]. destruct Mf as (q & E & _). discriminate.
        * intros n I. apply (R1 ps tail); auto.
  Qed.
  Lemma unify_level m : unify c section vars = Some m -> at_level m.
  Proof.
    intros U. pose proof (unify_get _ _ _ _ U) as G. split.
    - intros k N L. rewrite G. destruct (own c section vars k) as [v|] eqn:E.
      + left. unfold sc, the_scope. apply eqb_neq in N. now rewrite N, E.
      + destruct (cross k) as [[sec opt]|] eqn:C.
        * right. split; auto. apply cross_some in C. eauto.
        * left. unfold sc, the_scope. apply eqb_neq in N. now rewrite N, E, C.
    - intros k. now rewrite G.
  Qed.
End Levels.
Lemma means_ext s1 s2 : (forall n, s1 n = s2 n) -> forall d v r, means s1 d v r -> means s2 d v r.
Proof.
  intros E. induction d as [|d IH]; intros v r H; [inversion H; constructor|].
  assert (P : forall p q, stands s1 d p q -> stands s2 d p q).
  { intros p q St. inversion St; subst.
    - constructor.
    - constructor.
    - apply s_missing. now rewrite <- E.
    - apply s_plain; auto. now rewrite <- E.
    - eapply s_nested; eauto. now rewrite <- E. }
  assert (I : forall ps q, in_turn (stands s1 d) ps q -> in_turn (stands s2 d) ps q).
  { intros ps q It. induction It; [constructor|apply it_err; auto|apply it_val; auto|eapply it_later; eauto]. }
  inversion H; subst; [apply m_good|apply m_err|eapply m_bad]; eauto.
Qed.
Lemma get_means c section vars option v scope r : section <> [] -> tidy_config c section vars -> no_module c section vars -> there c section ->
  (forall n, names c section vars n (scope n)) -> own c section vars (lower option) = Some v ->
  (get c section option false vars = r <-> means scope 10 v r).
Proof.
  intros Ne T NoM Th Sc Ov. apply (unify_there c section vars) in Th as [m U].
  assert (G : forall q, means scope 10 v q -> get c section option false vars = q).
  { intros q Me. unfold get. rewrite U, (unify_get _ _ _ _ U), Ov. apply interpolate_means with (vars := vars); auto.
    - now apply unify_level.
    - destruct T as (T0 & T1 & T2 & T3). unfold own in Ov. destruct (given vars (lower option)) as [u|] eqn:Eg; cbn in Ov.
      + injection Ov as ->. apply given_In in Eg as [k I]. eauto.
      + destruct (value_of c section (lower option)) eqn:Ev; cbn in Ov; [injection Ov as ->; eauto|eauto].
    - eapply means_ext; [|exact Me]. intros n. symmetry. rewrite <- (names_the_scope _ _ _ _ _ (Sc n)). reflexivity. }
  split; [|apply G]. intros <-. destruct (means_exists scope 10 v) as [q Me]. now rewrite (G q Me).
Qed.
