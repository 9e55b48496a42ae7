(** Proofs about the waking of the observer. *)
From Coq Require Import Arith.
From Verif Require Import Base Wake_Model Wake_Spec.
Local Open Scope nat_scope.

(** ** The invariant *)
Definition ringing (c : call) : Prop := c = Check \/ c = Read \/ c = Ring.
Definition inv (s : state) : Prop :=
  (notify s = true -> paused s = false -> thread s = Look \/ thread s = Wait -> announced s -> flag s = true \/ Exists ringing (calls s)) /\
  (stop s <> None -> notify s = false) /\ stop s <> Some (Empty false) /\
  (notify s = true -> thread s <> Nap /\ thread s <> Flush /\ thread s <> Gone /\ (thread s = Leave -> active s = false)) /\
  (thread s = Flush \/ thread s = Gone -> notify s = false).

Lemma Exists_replace (P : call -> Prop) i c l x : nth_error l i = Some c -> Exists P l -> ~ P c \/ Exists P x -> Exists P (replace_nth i x l).
Proof.
  intros E H K. unfold replace_nth. apply nth_error_split in E as (a & b & -> & <-).
  rewrite firstn_app, Nat.sub_diag, firstn_all, firstn_O, app_nil_r. rewrite skipn_app. replace (S (length a) - length a) with 1 by lia. rewrite skipn_all2 by lia. cbn [app skipn].
  apply Exists_app in H as [H|H]; [apply Exists_app; now left|]. inversion H as [? ? H'|? ? H']; subst.
  - destruct K as [K|K]; [contradiction|]. apply Exists_app. right. apply Exists_app. now left.
  - apply Exists_app. right. apply Exists_app. now right.
Qed.
Lemma Exists_new (P : call -> Prop) i c l x : nth_error l i = Some c -> Exists P x -> Exists P (replace_nth i x l).
Proof. intros E K. unfold replace_nth. apply Exists_app. right. apply Exists_app. now left. Qed.
Ltac fields := cbn [queue done flag notify paused active thread calls stop w_queue w_done w_flag w_notify w_paused w_active w_thread w_calls w_stop].
Ltac fields_in H := cbn [queue done flag notify paused active thread calls stop w_queue w_done w_flag w_notify w_paused w_active w_thread w_calls w_stop] in H.

Lemma inv_init : inv init.
Proof. unfold inv, init, announced. fields. repeat split; try discriminate; try tauto. - intros _ _ _ [ev []]. - intros [H|H]; discriminate. Qed.
Ltac fin := unfold inv, announced; fields; (split; [|split; [|split; [|split]]]); intros;
  repeat match goal with H : _ \/ _ |- _ => destruct H end; repeat split; intros; try discriminate; try congruence; auto.
Lemma inv_thread s r : inv s -> inv (thread_step r s).
Proof.
  intros (I1 & I2 & I3 & I4 & I5). unfold thread_step. destruct (thread s) eqn:T.
  - destruct (active s) eqn:A; fin.
  - destruct (paused s) eqn:P; fin.
  - destruct (queue s) as [|e q] eqn:Q; fin. rewrite Q in *. match goal with H : exists _, In _ [] |- _ => destruct H as [? []] end.
  - fin.
  - destruct (notify s) eqn:N; fin. rewrite N. auto.
  - destruct (flag s) eqn:F; [fin|]. unfold inv. rewrite T, F. auto 6.
  - fin.
  - assert (N : notify s = false) by (destruct (notify s); auto; destruct (I4 eq_refl) as [X _]; congruence).
    destruct (is_nil (queue s)); fin.
  - fin.
  - assert (N : notify s = false) by auto. fin.
  - assert (N : notify s = false) by auto. unfold inv. rewrite T. auto 6.
Qed.
Lemma inv_step s l : (forall ev, l <> StopReq ev false) -> inv s -> inv (step s l).
Proof.
  intros Fo I. pose proof I as (I1 & I2 & I3 & I4 & I5). destruct l as [ev|ev|b|i|ev f| |r|]; cbn [step].
  - unfold inv, announced; fields. repeat split; auto; try apply I4; auto. intros N P T _. right. apply Exists_app. right. constructor. now left.
  - unfold inv, announced; fields. repeat split; auto; try apply I4; auto. intros N P T [e H]. apply in_app_iff in H as [H|[H|[]]]; [|discriminate]. apply I1; auto. now exists e.
  - destruct (Bool.eqb (paused s) b); [exact I|]. unfold inv, announced; fields. repeat split; auto; try apply I4; auto. intros N P T A. destruct (I1 N P T A) as [H|H]; auto. right. apply Exists_app. now left.
  - unfold call_step. destruct (nth_error (calls s) i) as [[| | |b]|] eqn:E; [| | | |exact I].
    + unfold inv, announced; fields. repeat split; auto; try apply I4; auto. intros N P T A. destruct (I1 N P T A) as [H|H]; auto. right. rewrite P. eapply Exists_replace; eauto.
      right. constructor. right. now left.
    + unfold inv, announced; fields. repeat split; auto; try apply I4; auto. intros N P T A. destruct (I1 N P T A) as [H|H]; auto. right. rewrite N. eapply Exists_replace; eauto.
      right. constructor. right. now right.
    + unfold inv, announced; fields. repeat split; auto; try apply I4; auto.
    + unfold inv, announced; fields. repeat split; auto; try apply I4; auto. intros N P T A. right. eapply Exists_new; eauto. constructor. now left.
  - destruct (stop s) eqn:S0; [exact I|]. destruct (active s && notify s) eqn:AN; [|exact I]. apply andb_true_iff in AN as [A N].
    destruct f; [|destruct (Fo ev); reflexivity].
    unfold inv, announced; fields. repeat split; auto; try discriminate.
  - unfold stop_step. destruct (stop s) as [[f| | |]|] eqn:S0; [| | | |exact I]; assert (N : notify s = false) by (apply I2; discriminate).
    + destruct f; [|congruence]. rewrite orb_true_r. unfold inv, announced; fields; rewrite ?N. repeat split; auto; try discriminate.
    + unfold inv, announced; fields; rewrite ?N. repeat split; auto; try discriminate.
    + unfold inv, announced; fields; rewrite ?N. repeat split; auto; try discriminate.
    + unfold inv, announced; fields; rewrite ?N. repeat split; auto; try discriminate.
  - now apply inv_thread.
  - destruct (thread s) eqn:T; try exact I. unfold inv, announced; fields. repeat split; auto; try discriminate; try (intros _ _ [H|H]; discriminate); try (intros [H|H]; discriminate).
Qed.
Lemma inv_run l : forall s, only_forced l -> inv s -> inv (run s l).
Proof.
  induction l as [|x l IH]; intros s F I; [exact I|]. cbn [run fold_left]. apply IH.
  - intros ev H. apply (F ev). now right.
  - apply inv_step; auto. intros ev ->. apply (F ev). now left.
Qed.

(** ** Alone *)
Lemma drain : forall q s, thread s = Inner -> paused s = false -> queue s = q -> forall rs, length rs = 3 * length q ->
  let s' := run s (map Step rs) in thread s' = Inner /\ queue s' = [] /\ map fst (done s') = map fst (done s) ++ map snd q.
Proof.
  induction q as [|e q IH]; intros s T P Q rs L; cbn [length] in L.
  - destruct rs; [|cbn in L; lia]. cbn. rewrite app_nil_r. auto.
  - destruct rs as [|r1 [|r2 [|r3 rs]]]; cbn [length] in L; try lia. cbv zeta.
    set (s3 := w_thread Inner (w_done (done s ++ [(snd e, r3)]) (w_queue q s))).
    assert (E : run s (map Step (r1 :: r2 :: r3 :: rs)) = run s3 (map Step rs)).
    { unfold run. cbn [map fold_left step]. f_equal. unfold thread_step at 3. rewrite T, P. unfold thread_step at 2. fields. rewrite Q. unfold thread_step. fields. reflexivity. }
    rewrite E. destruct (IH s3 eq_refl P eq_refl rs) as (A & B & C); [lia|]. split; [exact A|]. split; [exact B|]. rewrite C. unfold s3. fields.
    rewrite map_app, <- app_assoc. reflexivity.
Qed.
Lemma run_app s a b : run s (a ++ b) = run (run s a) b.
Proof. apply fold_left_app. Qed.
(** to the inner loop, with what is taken and done on the way *)
Lemma to_inner s : active s = true -> notify s = true -> paused s = false -> thread s <> Nap -> thread s <> Leave -> thread s <> Flush -> thread s <> Gone ->
  (thread s = Look \/ thread s = Wait -> flag s = true) -> (thread s = Pop -> queue s <> []) ->
  exists k, forall rs, length rs = k -> let s' := run s (map Step rs) in thread s' = Inner /\ paused s' = false /\
    map fst (done s') ++ map snd (queue s') = map fst (done s) ++ current s ++ map snd (queue s) /\ length (queue s') = length (queue s) - (match thread s with Pop => 1 | _ => 0 end).
Proof.
  intros A N P T1 T2 T3 T4 F Q. destruct s as [q d f n p a t c st]. cbn [thread queue active notify paused flag done] in *. subst a n p. destruct t; try congruence.
  - exists 1. intros [|r [|]] L; try (cbn in L; lia). cbn. repeat split; auto. lia.
  - exists 0. intros [|] L; try (cbn in L; lia). cbn. repeat split; auto. lia.
  - exists 2. intros [|r1 [|r2 [|]]] L; try (cbn in L; lia). destruct q as [|e q]; [now destruct Q|]. cbn. rewrite map_app, <- app_assoc. repeat split; auto. lia.
  - exists 1. intros [|r [|]] L; try (cbn in L; lia). cbn. rewrite map_app, <- app_assoc. repeat split; auto. lia.
  - rewrite F by auto. exists 4. intros [|r1 [|r2 [|r3 [|r4 [|]]]]] L; try (cbn in L; lia). cbn. repeat split; auto. lia.
  - rewrite F by auto. exists 3. intros [|r1 [|r2 [|r3 [|]]]] L; try (cbn in L; lia). cbn. repeat split; auto. lia.
  - exists 2. intros [|r1 [|r2 [|]]] L; try (cbn in L; lia). cbn. repeat split; auto. lia.
Qed.
Lemma alone s : inv s -> in_use s -> calls s = [] -> announced s ->
  exists k, forall rs, length rs = k -> let s' := run s (map Step rs) in
    queue s' = [] /\ map fst (done s') = map fst (done s) ++ current s ++ map snd (queue s).
Proof.
  intros (I1 & _ & _ & I4 & _) (A & N & P) C An. destruct (I4 N) as (T1 & T3 & T4 & T2).
  destruct (to_inner s A N P T1) as [k K]; auto.
  - intros H. specialize (T2 H). congruence.
  - intros H. destruct (I1 N P H An) as [X|X]; auto. rewrite C in X. inversion X.
  - intros _ E. destruct An as [ev An]. now rewrite E in An.
  - exists (k + 3 * (length (queue s) - match thread s with Pop => 1 | _ => 0 end)). intros rs L. cbv zeta.
    rewrite <- (firstn_skipn k rs), map_app, run_app.
    assert (Lk : length (firstn k rs) = k) by (rewrite firstn_length; lia).
    destruct (K _ Lk) as (X1 & X2 & X3 & X4). set (s1 := run s (map Step (firstn k rs))) in *.
    destruct (drain (queue s1) s1 X1 X2 eq_refl (skipn k rs)) as (Y1 & Y2 & Y3); [rewrite skipn_length; lia|]. split; [exact Y2|]. rewrite Y3. exact X3.
Qed.

(** ** Paused *)
Definition pend (s : state) : nat := match thread s with Pop | Exec _ => 1 | _ => 0 end.
Lemma In_replace {A} (x : A) i y l : In x (replace_nth i y l) -> In x y \/ In x l.
Proof.
  unfold replace_nth. rewrite !in_app_iff. intros [H|[H|H]]; auto; right.
  - rewrite <- (firstn_skipn i l). apply in_app_iff. now left.
  - rewrite <- (firstn_skipn (S i) l). apply in_app_iff. now right.
Qed.
Lemma pause_step s l : paused s = true -> ~ In (Assign false) (calls s) -> l <> SetPaused false ->
  paused (step s l) = true /\ ~ In (Assign false) (calls (step s l)) /\ length (done (step s l)) + pend (step s l) <= length (done s) + pend s.
Proof.
  intros P C L. destruct l as [ev|ev|b|i|ev f| |r|]; cbn [step].
  - fields. repeat split; auto. intros H. apply in_app_iff in H as [H|[H|[]]]; [auto|discriminate].
  - fields. auto.
  - destruct b; [|congruence]. rewrite P. cbn [Bool.eqb]. auto.
  - unfold call_step. destruct (nth_error (calls s) i) as [[| | |b]|] eqn:E; fields; auto; (split; [|split; auto]); auto.
    + intros H. apply In_replace in H as [H|H]; auto. rewrite P in H. destruct H.
    + intros H. apply In_replace in H as [H|H]; auto. destruct (notify s); [destruct H as [H|[]]; discriminate|destruct H].
    + intros H. apply In_replace in H as [H|H]; auto.
    + apply nth_error_In in E. destruct b; auto.
    + intros H. apply In_replace in H as [H|H]; auto. destruct H as [H|[]]; discriminate.
  - destruct (stop s); [auto|]. destruct (active s && notify s); fields; auto.
  - unfold stop_step. destruct (stop s) as [[f| | |]|]; try (fields; auto; fail). destruct (is_nil (queue s) || f); fields; auto.
  - unfold thread_step, pend. destruct (thread s) eqn:T; fields; rewrite ?P, ?T; auto.
    + destruct (active s); fields; auto.
    + destruct (queue s); fields; repeat split; auto; lia.
    + repeat split; auto. rewrite app_length. cbn [length]. lia.
    + destruct (notify s); fields; repeat split; auto; lia.
    + destruct (flag s); fields; rewrite ?T; auto.
    + destruct (is_nil (queue s)); fields; repeat split; auto; lia.
  - unfold pend. destruct (thread s) eqn:T; fields; rewrite ?T; auto.
Qed.
Lemma pause_run l : forall s, paused s = true -> ~ In (Assign false) (calls s) -> ~ In (SetPaused false) l ->
  length (done (run s l)) + pend (run s l) <= length (done s) + pend s.
Proof.
  induction l as [|x l IH]; intros s P C N; [cbn; lia|]. cbn [run fold_left].
  destruct (pause_step s x P C) as (P1 & C1 & L1); [intros ->; apply N; now left|].
  assert (Z := IH (step s x) P1 C1). unfold run in Z. specialize (Z (fun H => N (or_intror H))). lia.
Qed.

(** ** The end *)
Definition rank (p : place) : nat :=
  match p with Pop => 9 | Exec _ => 8 | Inner => 7 | Look => 6 | Wait => 5 | Wiped => 4 | Nap => 4 | Outer => 3 | Leave => 2 | Flush => 1 | Gone => 0 end.
Lemma round s r : active s = false -> paused s = true ->
  let s' := step (step s (Step r)) Timeout in active s' = false /\ paused s' = true /\ rank (thread s') <= rank (thread s) - 1 /\ length (done s') + pend s' <= length (done s) + pend s.
Proof.
  intros A P. destruct s as [q d f n p a t c st]. cbn [active paused] in A, P. subst a p. cbv zeta. unfold pend.
  destruct t; cbn; try (repeat split; auto; lia); try (destruct n; cbn; repeat split; auto; lia); try (destruct f; cbn; repeat split; auto; lia);
    try (destruct q as [|x q]; cbn; repeat split; auto; lia). rewrite app_length. cbn. repeat split; auto. lia.
Qed.
Lemma ends rs : forall s, active s = false -> paused s = true ->
  let s' := run s (flat_map (fun r => [Step r; Timeout]) rs) in rank (thread s') <= rank (thread s) - length rs /\ length (done s') + pend s' <= length (done s) + pend s.
Proof.
  induction rs as [|r rs IH]; intros s A P; [cbn; lia|]. cbv zeta. cbn [flat_map]. rewrite run_app. change (run s [Step r; Timeout]) with (step (step s (Step r)) Timeout).
  destruct (round s r A P) as (A1 & P1 & R1 & D1). destruct (IH _ A1 P1) as [R2 D2]. cbn [length]. lia.
Qed.

(** ** Timers *)
Definition tinv (s : timers) : Prop :=
  NoDup (map t_id (armed s)) /\ (forall t, In t (armed s) -> t_id t < next_id s) /\ (forall n i, dget n (named s) = Some i -> i < next_id s) /\
  (forall t n, In t (armed s) -> t_name t = Some n <-> dget n (named s) = Some (t_id t)).
Lemma NoDup_filter_id (f : timer -> bool) l : NoDup (map t_id l) -> NoDup (map t_id (filter f l)).
Proof.
  induction l as [|t l IH]; intros H; [constructor|]. cbn [map] in H. inversion H as [|? ? N D]; subst. cbn [filter]. destruct (f t); auto. cbn [map]. constructor; auto.
  intros I. apply N. apply in_map_iff in I as (x & E & I). apply filter_In in I as [I _]. apply in_map_iff. eauto.
Qed.
Lemma NoDup_snoc (l : list nat) x : NoDup l -> ~ In x l -> NoDup (l ++ [x]).
Proof. intros D N. induction D as [|y l Ny D IH]; cbn; [constructor; auto; constructor|]. constructor; [|apply IH; intros H; apply N; now right]. intros H. apply in_app_iff in H as [H|[H|[]]]; auto. subst. apply N. now left. Qed.
Lemma tinv_named name start ev s : tinv s -> tinv (add_named_timer name start ev s).
Proof.
  intros (D & L & M & K). unfold add_named_timer.
  set (a := match dget name (named s) with Some i => filter (fun t => negb (Nat.eqb (t_id t) i)) (armed s) | None => armed s end).
  assert (Ia : forall t, In t a -> In t (armed s) /\ t_name t <> Some name).
  { intros t I. unfold a in I. destruct (dget name (named s)) as [i|] eqn:E.
    - apply filter_In in I as [I F]. split; auto. intros X. apply (K t name I) in X. rewrite E in X. injection X as X. apply negb_true_iff, Nat.eqb_neq in F. congruence.
    - split; auto. intros X. apply (K t name I) in X. congruence. }
  assert (Da : NoDup (map t_id a)) by (unfold a; destruct (dget name (named s)); auto using NoDup_filter_id).
  repeat split; cbn [armed next_id named].
  - rewrite map_app. cbn [map t_id]. apply NoDup_snoc; auto. intros H. apply in_map_iff in H as (t & E & I). apply Ia in I as [I _]. apply L in I. lia.
  - intros t H. apply in_app_iff in H as [H|[<-|[]]]; [|cbn; lia]. apply Ia in H as [H _]. apply L in H. lia.
  - intros n i H. destruct (eqb_spec name n) as [<-|N]; [rewrite dget_dset_same in H; injection H as <-; lia|]. rewrite dget_dset_other in H by congruence. apply M in H. lia.
  - intros E. apply in_app_iff in H as [H|[<-|[]]].
    + apply Ia in H as [H X]. destruct (eqb_spec name n) as [<-|N]; [congruence|]. rewrite dget_dset_other by congruence. now apply K.
    + cbn in *. injection E as <-. now rewrite dget_dset_same.
  - intros E. apply in_app_iff in H as [H|[<-|[]]].
    + apply Ia in H as [H X]. destruct (eqb_spec name n) as [<-|N]; [rewrite dget_dset_same in E; injection E as E; apply L in H; lia|]. rewrite dget_dset_other in E by congruence. now apply K.
    + cbn in *. destruct (eqb_spec name n) as [<-|N]; [reflexivity|]. rewrite dget_dset_other in E by congruence. apply M in E. lia.
Qed.
Lemma tinv_step s l : tinv s -> tinv (tstep s l).
Proof.
  intros I. pose proof I as (D & L & M & K). destruct l as [n z ev|z ev|ev|z|id|b|r]; cbn [tstep]; auto using tinv_named.
  - unfold add_timer. repeat split; cbn [armed next_id named].
    + rewrite map_app. cbn [map t_id]. apply NoDup_snoc; auto. intros H. apply in_map_iff in H as (t & E & H). apply L in H. lia.
    + intros t H. apply in_app_iff in H as [H|[<-|[]]]; [apply L in H; lia|cbn; lia].
    + intros n i H. apply M in H. lia.
    + intros E. apply in_app_iff in H as [H|[<-|[]]]; [now apply K|discriminate].
    + intros E. apply in_app_iff in H as [H|[<-|[]]]; [now apply K|]. cbn in E. apply M in E. lia.
  - destruct (find _ (armed s)) as [t|] eqn:F; [|exact I]. destruct (t_due t <=? now s)%Z; [|exact I].
    repeat split; cbn [armed next_id named]; auto using NoDup_filter_id.
    + intros u H. apply filter_In in H as [H _]. auto.
    + intros E. apply filter_In in H as [H _]. now apply K.
    + intros E. apply filter_In in H as [H _]. now apply K.
  - destruct (waiting s) as [|[|n] q] eqn:W; [exact I| |exact I]. unfold db_purge. cbn [db]. destruct (db s); cbn [andb]; [|apply tinv_named; exact I].
    destruct r; [exact I|]. apply tinv_named. exact I.
Qed.
Lemma tinv_init t b : tinv (tinit t b).
Proof. apply tinv_named. split; [constructor|]. split; [intros ? []|]. split; [discriminate|intros ? ? []]. Qed.
Lemma tinv_run l : forall s, tinv s -> tinv (trun s l).
Proof. induction l as [|x l IH]; intros s I; [exact I|]. cbn [trun fold_left]. apply IH. now apply tinv_step. Qed.
Lemma one_named s name : tinv s -> length (armed_as name s) <= 1.
Proof.
  intros (D & _ & _ & K). unfold armed_as. set (f := fun t => match t_name t with Some n => String.eqb n name | None => false end).
  assert (H : forall l, NoDup (map t_id l) -> (forall t, In t l -> In t (armed s)) -> length (filter f l) <= 1).
  { induction l as [|t l IH]; intros Dl Il; [cbn; lia|]. cbn [map] in Dl. inversion Dl as [|? ? N Dl']; subst. cbn [filter]. destruct (f t) eqn:Ft; [|apply IH; auto; intros u Hu; apply Il; now right].
    assert (E : filter f l = []).
    { destruct (filter f l) as [|u r] eqn:El; auto. exfalso. assert (Iu : In u (filter f l)) by (rewrite El; now left). apply filter_In in Iu as [Iu Fu].
      unfold f in Ft, Fu. destruct (t_name t) as [n|] eqn:Nt; [|discriminate]. destruct (t_name u) as [m|] eqn:Nu; [|discriminate].
      apply String.eqb_eq in Ft, Fu. subst n m. pose proof (proj1 (K t name (Il t (or_introl eq_refl))) Nt) as K1. pose proof (proj1 (K u name (Il u (or_intror Iu))) Nu) as K2. rewrite K1 in K2. injection K2 as K2.
      apply N. apply in_map_iff. exists u. auto. }
    rewrite E. cbn. lia. }
  apply H; auto.
Qed.

(** ** Purging *)
Definition DBP : string := "DB_PURGE".
Definition pinv (s : timers) : Prop :=
  tinv s /\ (forall t, In t (armed s) -> t_event t = Purge <-> t_name t = Some DBP) /\
  to_come s = (if existsb snd (purged s) then 0 else 1) /\ an_hour_apart (map fst (purged s)) /\
  (forall t z b, In t (armed s) -> t_event t = Purge -> In (z, b) (purged s) -> (z + 3600 <= t_due t)%Z) /\
  (forall z b, In Purge (waiting s) -> In (z, b) (purged s) -> (z + 3600 <= now s)%Z) /\ (forall z b, In (z, b) (purged s) -> (z <= now s)%Z).
Lemma hour_snoc l z : an_hour_apart l -> (forall x, In x l -> (x + 3600 <= z)%Z) -> an_hour_apart (l ++ [z]).
Proof.
  induction l as [|a l IH]; intros H B; [exact I|]. destruct l as [|b l]; cbn [app]; cbn [an_hour_apart] in *.
  - split; auto. apply B. now left.
  - destruct H as [H1 H2]. split; auto. apply IH; auto. intros x Hx. apply B. now right.
Qed.
Lemma filter_keep {A} (P Q : A -> bool) l : (forall x, In x l -> P x = true -> Q x = true) -> filter P (filter Q l) = filter P l.
Proof.
  induction l as [|x l IH]; intros H; [reflexivity|]. cbn [filter]. destruct (Q x) eqn:Eq; cbn [filter]; rewrite IH by (intros y Hy; apply H; now right); [reflexivity|].
  destruct (P x) eqn:Ep; [|reflexivity]. rewrite (H x) in Eq; [discriminate|now left|exact Ep].
Qed.
Lemma filter_none {A} (P : A -> bool) l : length (filter P l) = 0 -> forall x, In x l -> P x = false.
Proof. induction l as [|y l IH]; intros H x I; [destruct I|]. cbn [filter] in H. destruct (P y) eqn:E; [discriminate|]. destruct I as [<-|I]; auto. Qed.
Lemma none_filter {A} (P : A -> bool) l : (forall x, In x l -> P x = false) -> filter P l = [].
Proof. induction l as [|y l IH]; intros H; [reflexivity|]. cbn [filter]. rewrite (H y) by now left. apply IH. intros x Hx. apply H. now right. Qed.
Definition isp (t : timer) : bool := is_purge (t_event t).
Lemma take_one l t : NoDup (map t_id l) -> In t l -> isp t = true -> length (filter isp l) = S (length (filter isp (filter (fun u => negb (Nat.eqb (t_id u) (t_id t))) l))).
Proof.
  induction l as [|u l IH]; intros D I P; [destruct I|]. cbn [map] in D. inversion D as [|? ? N D']; subst. destruct I as [->|I].
  - cbn [filter]. rewrite P, Nat.eqb_refl. cbn [negb length]. f_equal. f_equal. symmetry. apply filter_keep. intros x Hx _. apply negb_true_iff, Nat.eqb_neq. intros E. apply N. rewrite <- E. now apply in_map.
  - cbn [filter]. assert (E : Nat.eqb (t_id u) (t_id t) = false) by (apply Nat.eqb_neq; intros E; apply N; rewrite E; now apply in_map). rewrite E. cbn [negb filter].
    destruct (isp u); cbn [length]; rewrite (IH D' I P); reflexivity.
Qed.
Lemma same_id l t u : NoDup (map t_id l) -> In t l -> In u l -> t_id t = t_id u -> t = u.
Proof.
  induction l as [|x l IH]; intros D I J E; [destruct I|]. cbn [map] in D. inversion D as [|? ? N D']; subst. destruct I as [->|I], J as [->|J]; auto.
  - destruct N. rewrite E. now apply in_map.
  - destruct N. rewrite <- E. now apply in_map.
Qed.
Lemma isp_iff t : isp t = true <-> t_event t = Purge.
Proof. unfold isp. destruct (t_event t); cbn; split; intros; congruence. Qed.
Lemma isp_other t : t_event t <> Purge -> isp t = false.
Proof. unfold isp. destruct (t_event t); cbn; congruence. Qed.
Lemma to_come_eq s : to_come s = length (filter isp (armed s)) + length (filter is_purge (waiting s)).
Proof. reflexivity. Qed.
(** what a named timer does to the list of timers *)
Lemma named_armed name start ev s : tinv s -> exists a, armed (add_named_timer name start ev s) = a ++ [mkT (next_id s) (Some name) (now s + start) ev] /\
  (forall t, In t a <-> In t (armed s) /\ t_name t <> Some name) /\ (forall P : timer -> bool, (forall t, In t (armed s) -> t_name t = Some name -> P t = false) -> filter P a = filter P (armed s)).
Proof.
  intros (D & L & M & K). eexists. split; [reflexivity|]. destruct (dget name (named s)) as [i|] eqn:E; split.
  - intros t. rewrite filter_In, negb_true_iff, Nat.eqb_neq. split; intros [I X]; split; auto; intros Y; apply X.
    + apply (K t name I) in Y. congruence.
    + apply (K t name I). congruence.
  - intros P H. apply filter_keep. intros t I Pt. apply negb_true_iff, Nat.eqb_neq. intros X. rewrite (H t I) in Pt; [discriminate|]. apply (K t name I). congruence.
  - intros t. split; [|tauto]. intros I. split; auto. intros Y. apply (K t name I) in Y. congruence.
  - auto.
Qed.
Lemma pinv_init t b : pinv (tinit t b).
Proof.
  split; [apply tinv_init|]. cbn. split; [|repeat split; auto; intros; tauto]. intros x [<-|[]]. cbn. tauto.
Qed.
Lemma pinv_step s l : others l -> pinv s -> pinv (tstep s l).
Proof.
  intros O I. pose proof I as (T & Nm & Cn & H1 & H2 & H3 & H4). pose proof (tinv_step s l T) as T'.
  destruct l as [n z ev|z ev|ev|z|id|b|r]; cbn [tstep others] in *.
  - destruct O as [On Oe]. split; [exact T'|]. destruct (named_armed n z ev s T) as (a & Ea & Ia & Fa). rewrite to_come_eq, Ea. cbn [purged waiting now add_named_timer].
    assert (Hn : forall t, In t (armed s) -> t_name t = Some n -> isp t = false).
    { intros t It Et. apply isp_other. intros X. apply (Nm t It) in X. rewrite Et in X. apply On. injection X as ->. reflexivity. }
    split; [|split; [|split; [|split; [|split]]]]; auto.
    + intros t It. apply in_app_iff in It as [It|[<-|[]]]; [apply Nm; now apply Ia|]. cbn. split; [congruence|]. intros X. injection X as X. destruct On. exact X.
    + rewrite filter_app, (Fa isp Hn). cbn [filter]. rewrite isp_other by exact Oe. rewrite app_nil_r. exact Cn.
    + intros t z' b It. apply in_app_iff in It as [It|[<-|[]]]; [apply H2; now apply Ia|]. cbn. congruence.
  - split; [exact T'|]. unfold add_timer in *. cbn [purged waiting now armed]. rewrite to_come_eq. cbn [purged waiting now armed].
    split; [|split; [|split; [|split; [|split]]]]; auto.
    + intros t It. apply in_app_iff in It as [It|[<-|[]]]; [now apply Nm|]. cbn. split; [congruence|discriminate].
    + rewrite filter_app. cbn [filter]. rewrite isp_other by exact O. rewrite app_nil_r. exact Cn.
    + intros t z' b It. apply in_app_iff in It as [It|[<-|[]]]; [now apply H2|]. cbn. congruence.
  - split; [exact T'|]. rewrite to_come_eq. cbn [purged waiting now armed].
    split; [|split; [|split; [|split; [|split]]]]; auto.
    + rewrite filter_app. cbn [filter]. destruct ev; [congruence|]. cbn [is_purge]. rewrite app_nil_r. exact Cn.
    + intros z b It. apply in_app_iff in It as [It|[E|[]]]; [now apply H3|]. congruence.
  - split; [exact T'|]. rewrite to_come_eq. cbn [purged waiting now armed]. split; [|split; [|split; [|split; [|split]]]]; auto.
    + intros z' b Hw Hp. specialize (H3 _ _ Hw Hp). lia.
    + intros z' b Hp. specialize (H4 _ _ Hp). lia.
  - destruct (find (fun t => t_id t =? id) (armed s)) as [t|] eqn:F; [|exact I]. destruct (Z.leb_spec (t_due t) (now s)) as [Le|]; [|exact I].
    apply find_some in F as [It Et]. apply Nat.eqb_eq in Et. subst id. split; [exact T'|]. rewrite to_come_eq. cbn [purged waiting now armed].
    assert (D := proj1 T).
    split; [|split; [|split; [|split; [|split]]]]; auto.
    + intros u Iu. apply filter_In in Iu as [Iu _]. now apply Nm.
    + rewrite to_come_eq in Cn. rewrite filter_app, app_length. destruct (t_event t) eqn:Ev; cbn [filter is_purge length].
      * rewrite (take_one (armed s) t D It) in Cn by now apply isp_iff. lia.
      * rewrite filter_keep; [cbn; lia|]. intros u Iu Pu. apply negb_true_iff, Nat.eqb_neq. intros E. assert (X := same_id _ _ _ D Iu It E). subst u. apply isp_iff in Pu. congruence.
    + intros u z b Iu. apply filter_In in Iu as [Iu _]. now apply H2.
    + intros z b Iw Ip. apply in_app_iff in Iw as [Iw|[Ev|[]]]; [eauto|]. specialize (H2 t z b It Ev Ip). lia.
  - split; [exact T'|]. rewrite to_come_eq. cbn [purged waiting now armed]. auto 10.
  - destruct (waiting s) as [|ev q] eqn:W; [exact I|]. destruct ev as [|n].
    + rewrite to_come_eq, W in Cn. cbn [filter is_purge length] in Cn. destruct (existsb snd (purged s)) eqn:Ex; [lia|].
      assert (A0 : length (filter isp (armed s)) = 0) by lia. assert (Q0 : length (filter is_purge q) = 0) by lia.
      assert (Qn : ~ In Purge q) by (intros X; apply (filter_none _ _ Q0) in X; discriminate).
      assert (G : forall s1, armed s1 = armed s -> waiting s1 = q -> now s1 = now s -> tinv s1 -> existsb snd (purged s1) = false -> an_hour_apart (map fst (purged s1)) -> (forall z b, In (z, b) (purged s1) -> (z <= now s)%Z) ->
        tinv (add_named_timer "DB_PURGE" purge_interval Purge s1) -> pinv (add_named_timer "DB_PURGE" purge_interval Purge s1)).
      { intros s1 Ea1 Ew1 En1 T1 Ex1 Hh Hz Tn. split; [exact Tn|]. destruct (named_armed "DB_PURGE" purge_interval Purge s1 T1) as (a & Ea & Ia & _). rewrite to_come_eq, Ea. cbn [purged waiting now add_named_timer]. rewrite Ea1 in *. rewrite Ew1, En1, Ex1.
        assert (Na : forall t, In t a -> isp t = false) by (intros t It; apply Ia in It as [It _]; now apply (filter_none isp _ A0)).
        split; [|split; [|split; [|split; [|split]]]]; auto.
        - intros t It. apply in_app_iff in It as [It|[<-|[]]]; [apply Nm; now apply Ia|]. cbn. tauto.
        - rewrite filter_app, (none_filter isp a Na), Q0. reflexivity.
        - intros t z b It Et Ip. apply in_app_iff in It as [It|[<-|[]]]; [apply Na in It; apply isp_iff in Et; congruence|]. cbn [t_due]. specialize (Hz _ _ Ip). unfold purge_interval. lia.
        - intros z b X. contradiction. }
      unfold db_purge in *. cbn [db purged now armed waiting named next_id] in *. destruct (db s) eqn:Db; cbn [andb] in *.
      * assert (Hs : an_hour_apart (map fst (purged s ++ [(now s, r)]))).
        { rewrite map_app. apply hour_snoc; auto. intros x Hx. apply in_map_iff in Hx as ((z & b) & <- & Hx). apply (H3 z b); [now left|exact Hx]. }
        assert (Hz : forall z b, In (z, b) (purged s ++ [(now s, r)]) -> (z <= now s)%Z) by (intros z b X; apply in_app_iff in X as [X|[X|[]]]; [now apply (H4 z b)|injection X as <- _; lia]).
        destruct r.
        -- split; [exact T'|]. rewrite to_come_eq. cbn [armed waiting purged now]. rewrite existsb_app. cbn [existsb snd]. rewrite orb_true_r, A0, Q0.
           split; [|split; [|split; [|split; [|split]]]]; auto.
           ++ intros t z b It Et. apply (filter_none isp _ A0) in It. apply isp_iff in Et. congruence.
           ++ intros z b X. contradiction.
        -- apply G; auto. cbn [purged]. rewrite existsb_app, Ex. reflexivity.
      * apply G; auto.
    + split; [exact T'|]. rewrite to_come_eq in *. rewrite W in Cn. cbn [filter is_purge] in Cn. cbn [armed waiting purged now]. split; [|split; [|split; [|split; [|split]]]]; auto.
      intros z b X. apply H3. now right.
Qed.
Lemma pinv_run l : forall s, Forall others l -> pinv s -> pinv (trun s l).
Proof. induction l as [|x l IH]; intros s O I; [exact I|]. inversion O; subst. cbn [trun fold_left]. apply IH; auto. now apply pinv_step. Qed.
Lemma lost_run l : forall s, Forall others l -> pinv s -> existsb snd (purged s) = true -> purged (trun s l) = purged s.
Proof.
  induction l as [|x l IH]; intros s O I E; [reflexivity|]. inversion O as [|? ? O1 O2]; subst. cbn [trun fold_left].
  assert (S : purged (tstep s x) = purged s).
  { destruct I as (_ & _ & C & _). rewrite E in C. destruct x as [n z ev|z ev|ev|z|id|b|r]; cbn [tstep]; auto.
    - destruct (find _ _) as [t|]; auto. destruct (t_due t <=? now s)%Z; auto.
    - destruct (waiting s) as [|[|n] q] eqn:W; auto. rewrite to_come_eq, W in C. cbn in C. lia. }
  change (fold_left tstep l (tstep s x)) with (trun (tstep s x) l). rewrite IH; auto; [now apply pinv_step|now rewrite S].
Qed.

(** ** The order *)
Lemma order_step s x : thread s <> Leave -> thread s <> Flush -> thread s <> Gone -> thread s <> Nap -> active s = true -> notify s = true -> stop s = None -> (forall ev f, x <> StopReq ev f) ->
  let s' := step s x in thread s' <> Leave /\ thread s' <> Flush /\ thread s' <> Gone /\ thread s' <> Nap /\ active s' = true /\ notify s' = true /\ stop s' = None /\
  map fst (done s') ++ current s' ++ map snd (queue s') = (map fst (done s) ++ current s ++ map snd (queue s)) ++ added x.
Proof.
  intros T1 T2 T3 T4 A N S0 X. destruct s as [q d f n p a t c st]. cbn [thread active notify stop] in *. subst a n st.
  destruct x as [ev|ev|b|i|ev b| |r|]; cbv zeta; cbn [step added]; rewrite ?app_nil_r.
  - unfold current. fields. rewrite map_app, <- !app_assoc. auto 10.
  - unfold current. fields. rewrite map_app, <- !app_assoc. auto 10.
  - fields. destruct (Bool.eqb p b); fields; auto 10.
  - unfold call_step. fields. destruct (nth_error c i) as [[| | |b]|]; fields; auto 10.
  - now destruct (X ev b).
  - cbn. auto 10.
  - destruct t; try congruence; cbn; repeat split; try discriminate; auto.
    + destruct p; discriminate. + destruct p; discriminate. + destruct p; discriminate. + destruct p; discriminate. + unfold current. fields. destruct p; reflexivity.
    + destruct q; cbn; discriminate. + destruct q; cbn; discriminate. + destruct q; cbn; discriminate. + destruct q; cbn; discriminate.
    + destruct q; reflexivity. + destruct q; reflexivity. + destruct q; reflexivity. + unfold current. destruct q; reflexivity.
    + rewrite map_app, <- app_assoc. reflexivity.
    + destruct f; discriminate. + destruct f; discriminate. + destruct f; discriminate. + destruct f; discriminate.
    + destruct f; reflexivity. + destruct f; reflexivity. + destruct f; reflexivity. + unfold current. destruct f; reflexivity.
  - destruct t; cbn; auto 10. repeat split; try discriminate; auto.
Qed.
Lemma order_run l : forall s, thread s <> Leave -> thread s <> Flush -> thread s <> Gone -> thread s <> Nap -> active s = true -> notify s = true -> stop s = None -> (forall ev f, ~ In (StopReq ev f) l) ->
  let s' := run s l in map fst (done s') ++ current s' ++ map snd (queue s') = (map fst (done s) ++ current s ++ map snd (queue s)) ++ flat_map added l.
Proof.
  induction l as [|x l IH]; intros s T1 T2 T3 T4 A N S0 X; [cbn; now rewrite app_nil_r|]. cbn [run fold_left flat_map].
  destruct (order_step s x T1 T2 T3 T4 A N S0) as (U1 & U2 & U3 & U4 & B & M & R & E); [intros ev f ->; apply (X ev f); now left|].
  cbv zeta. change (fold_left step l (step s x)) with (run (step s x) l). rewrite IH; auto; [|intros ev f H; apply (X ev f); now right]. rewrite E, <- app_assoc. reflexivity.
Qed.
Lemma soon_named name start ev s : (ev = Purge -> (start <= 3600)%Z) -> (forall t, In t (armed s) -> t_event t = Purge -> (t_due t <= now s + 3600)%Z) ->
  forall t, In t (armed (add_named_timer name start ev s)) -> t_event t = Purge -> (t_due t <= now s + 3600)%Z.
Proof.
  intros E H t I Et. unfold add_named_timer in I. cbn [armed] in I. apply in_app_iff in I as [I|[<-|[]]].
  - destruct (dget name (named s)); [apply filter_In in I as [I _]|]; auto.
  - cbn in *. specialize (E Et). lia.
Qed.
Lemma soon_step s l : others l -> (forall t, In t (armed s) -> t_event t = Purge -> (t_due t <= now s + 3600)%Z) ->
  forall t, In t (armed (tstep s l)) -> t_event t = Purge -> (t_due t <= now (tstep s l) + 3600)%Z.
Proof.
  intros O H. destruct l as [n z ev|z ev|ev|z|id|b|r]; cbn [tstep others] in *; auto.
  - apply soon_named; auto. intros ->. now destruct O.
  - intros t I Et. cbn [add_timer armed now] in *. apply in_app_iff in I as [I|[<-|[]]]; auto. cbn in Et. congruence.
  - intros t I Et. cbn [armed now] in *. specialize (H t I Et). lia.
  - destruct (find _ _) as [t|]; auto. destruct (t_due t <=? now s)%Z; auto. intros u I. cbn [armed now] in *. apply filter_In in I as [I _]. auto.
  - destruct (waiting s) as [|[|n] q]; auto. unfold db_purge. cbn [db]. destruct (db s); cbn [andb]; [destruct r; [exact H|]|]; apply soon_named; auto; unfold purge_interval; lia.
Qed.
Lemma soon_run l : forall s, Forall others l -> (forall t, In t (armed s) -> t_event t = Purge -> (t_due t <= now s + 3600)%Z) ->
  forall t, In t (armed (trun s l)) -> t_event t = Purge -> (t_due t <= now (trun s l) + 3600)%Z.
Proof. induction l as [|x l IH]; intros s O H; [exact H|]. inversion O; subst. cbn [trun fold_left]. apply IH; auto. now apply soon_step. Qed.
