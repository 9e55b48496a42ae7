(** Proofs about setting up the server, part 3: the commands of a configuration on a new server. *)
From Verif Require Import Base Text Options_Model Options_Spec.
From Verif Require Stream_Model Stream_Spec Stream_Proofs Stream_Proofs7 Stream_Props.
From Verif Require Import Server_Model Server_Spec Server_Proofs Server_Proofs2 Server_Proofs5 Server_Proofs6 Setup_Model Setup_Spec.
From Verif Require Setup_Proofs.
From Verif Require Import Setup_Proofs2.
Local Open Scope string_scope.
Local Open Scope list_scope.
Import Stream_Model (cmd(..), val(..)).
Import Setup_Proofs (shape(..)).

Definition not_all (c : cmd) : Prop := Stream_Spec.about c <> Some (tx "--all").
Lemma other_cmd w n c s : Stream_Spec.about c <> Some n -> not_all c -> other (str n) s (fst (handler w (encode c) s)).
Proof.
  assert (K : forall m k r, Some m <> Some n -> Some m <> Some (tx "--all") -> In k ["add"; "start"; "stop"; "set"; "multi-set"] ->
     other (str n) s (fst (handler w (A (T k :: T (str m) :: r)) s))).
  { intros m k r N NA I. apply (other_about w (str n) (str m)).
    - split; [|now exists k, r]. intros E. change "--all" with (str (tx "--all")) in E. apply str_inj in E. congruence.
    - intros E. apply str_inj in E. congruence. }
  unfold not_all. destruct c as [m b|m l|m o l|m a l|m|m]; cbn [Stream_Spec.about encode]; intros N NA; try (apply K; auto; cbn; tauto). apply other_refl.
Qed.
Lemma simple_cmd c : simple (encode c).
Proof. destruct c; cbn; split; discriminate. Qed.
Lemma reload_cmd w c s : s_reload s = [] -> s_reload (fst (handler w (encode c) s)) = [].
Proof. apply simple_reload, simple_cmd. Qed.

(** Commands not about a jail. *)
Lemma run_others w n m : forall s s' e, Forall (fun c => Stream_Spec.about c <> Some n) m -> Forall not_all m -> stream w (map encode m) s = (s', e) ->
  jail_of s' (str n) = jail_of s (str n).
Proof.
  induction m as [|c m IH]; intros s s' e HA HN H; cbn [map] in H; [now injection H as <- _|]. rewrite stream_cons in H.
  apply Forall_cons_iff in HA as [HA1 HA]. apply Forall_cons_iff in HN as [HN1 HN].
  destruct (other_cmd w n c s HA1 HN1) as [O _]. destruct (handler w (encode c) s) as [s1 [v|x]]; cbn [fst] in O.
  - now rewrite (IH s1 s' e HA HN H).
  - now injection H as <- _.
Qed.
Lemma run_reload w m : forall s s' e, s_reload s = [] -> stream w (map encode m) s = (s', e) -> s_reload s' = [].
Proof.
  induction m as [|c m IH]; intros s s' e R H; cbn [map] in H; [now injection H as <- _|]. rewrite stream_cons in H.
  pose proof (reload_cmd w c s R) as R1. destruct (handler w (encode c) s) as [s1 [v|x]]; cbn [fst] in R1; [now apply (IH s1 s' e)|now injection H as <- _].
Qed.
(** The settings of a jail. *)
Lemma about_jail_iff n c : Stream_Spec.about_jail n c = true <-> Stream_Spec.about c = Some n.
Proof.
  unfold Stream_Spec.about_jail. destruct (Stream_Spec.about c) as [m|]; [|split; discriminate]. destruct (eqb_spec m n) as [->|N]; [tauto|]. split; [discriminate|congruence].
Qed.
Lemma run_mid w n m : ~ In (str n) server_settings -> forall s s' J, Forall (shape n) (filter (Stream_Spec.about_jail n) m) -> Forall not_all m ->
  stream w (map encode m) s = (s', None) -> jail_of s (str n) = Some J -> j_rlogs J = None ->
  exists J', jail_of s' (str n) = Some J' /\ eff w (filter (Stream_Spec.about_jail n) m) J J'.
Proof.
  intros HS. induction m as [|c m IH]; intros s s' J HF HN H HJ HR; cbn [map] in H.
  - injection H as <-. exists J. split; [exact HJ|apply eff_nil].
  - rewrite stream_cons in H. destruct (handler w (encode c) s) as [s1 [v|x]] eqn:Hc; [|discriminate]. apply Forall_cons_iff in HN as [HN1 HN].
    cbn [filter] in *. destruct (Stream_Spec.about_jail n c) eqn:Ac.
    + apply Forall_cons_iff in HF as [HF1 HF]. destruct (step_shape w n HS c s s1 v J HF1 Hc HJ HR) as (J1 & HJ1 & E1).
      destruct (IH s1 s' J1 HF HN H HJ1) as (J2 & HJ2 & E2); [rewrite (ef_rlogs _ _ _ _ E1); exact HR|]. exists J2. split; [exact HJ2|]. exact (eff_app w [c] _ J J1 J2 E1 E2).
    + destruct (other_cmd w n c s) as [O _]; [intros E; apply about_jail_iff in E; congruence|exact HN1|]. rewrite Hc in O. cbn [fst] in O. apply (IH s1 s' J HF HN H); [congruence|exact HR].
Qed.

Lemma filter_split {A} (f : A -> bool) x : forall s y, filter f s = x :: y -> exists a b, s = a ++ x :: b /\ filter f a = [] /\ filter f b = y.
Proof.
  induction s as [|c s IH]; intros y H; [discriminate|]. cbn in H. destruct (f c) eqn:E.
  - injection H as -> <-. now exists [], s.
  - destruct (IH y H) as (a & b & -> & Ha & Hb). exists (c :: a), b. cbn. rewrite E. auto.
Qed.
Lemma filter_split_last {A} (f : A -> bool) z y : forall s, filter f s = y ++ [z] -> exists a b, s = a ++ z :: b /\ filter f a = y /\ filter f b = [].
Proof.
  induction y as [|x y IH]; intros s H; [destruct (filter_split f z s [] H) as (a & b & -> & Ha & Hb); now exists a, b|].
  destruct (filter_split f x s _ H) as (a & b & -> & Ha & Hb). destruct (IH b Hb) as (a' & b' & -> & Ha' & Hb'). exists (a ++ x :: a'), b'.
  rewrite <- app_assoc. split; [reflexivity|]. split; [|exact Hb'].
  assert (Fx : f x = true). { assert (In x (filter f (a ++ x :: a' ++ z :: b'))) by (rewrite H; now left). now apply filter_In in H0 as [_ ?]. }
  rewrite filter_app, Ha. cbn. rewrite Fx. now rewrite Ha'.
Qed.
Lemma filter_none_about n m : filter (Stream_Spec.about_jail n) m = [] -> Forall (fun c => Stream_Spec.about c <> Some n) m.
Proof.
  intros H. apply Forall_forall. intros c I E. apply about_jail_iff in E. assert (In c []) by (rewrite <- H; apply filter_In; now split). contradiction.
Qed.

Lemma add_new w n b s s' v : handler w (A [T "add"; T n; T b]) s = (s', Good v) -> s_reload s = [] ->
  n <> "--all" /\ exists no, jail_of s' n = Some (new_jail no b).
Proof.
  change (handler w (A [T "add"; T n; T b]) s) with (if eqb n all_jails then (s, Bad EReserved) else done (add_jail w n b s) (VTxt n)). intros H R.
  destruct (eqb_spec n all_jails) as [|N]; [discriminate|]. split; [exact N|].
  unfold add_jail in H. rewrite R in H. cbn [dget] in H. unfold jails_add in H. destruct (dmem n (s_jails s)); [discriminate|]. destruct (e_make w n b); [|discriminate].
  exists (s_next s). unfold db_add in H. destruct (s_db _); [destruct (e_dbadd w n)|]; cbn [done] in H; try discriminate; injection H as <- _;
    unfold jail_of; cbn [s_jails note set_next put set_jails set_enabled]; apply dget_dset_same.
Qed.
Lemma start_new w n s s' v J : handler w (A [T "start"; T n]) s = (s', Good v) -> jail_of s n = Some J ->
  j_filter J = TNew -> j_actions J = TNew -> j_idle J = false -> jail_of s' n = Some (with_threads TRun TRun J).
Proof.
  change (handler w (A [T "start"; T n]) s) with (done (start_jail w n s) Server_Model.VNone). intros H HJ Hf Ha Hi.
  unfold start_jail in H. unfold lookup in H. unfold jail_of in HJ. rewrite HJ in H. unfold is_alive at 1 in H. rewrite Hf, Ha in H. cbn [t_alive orb negb] in H.
  unfold jail_start in H. rewrite Hf in H. destruct (e_fstart w n); [|discriminate]. cbn [j_actions with_threads] in H. rewrite Ha in H. destruct (e_astart w n); [|discriminate].
  cbn [is_alive t_alive j_filter j_actions with_threads orb j_idle] in H. rewrite Hi in H. cbn [done] in H. injection H as <- _. unfold jail_of. cbn [s_jails note put set_jails]. now rewrite dget_dset_same.
Qed.

(** One jail. *)
Lemma jail_result w s n b s' : ~ In (str n) server_settings -> Forall not_all s -> filter (Stream_Spec.about_jail n) s = CAdd n b :: s' ++ [CStart n] -> Forall (shape n) s' ->
  forall S0 S1, s_reload S0 = [] -> stream w (map encode s) S0 = (S1, None) ->
  exists no J, eff w s' (new_jail no (py b)) J /\ jail_of S1 (str n) = Some (with_threads TRun TRun J).
Proof.
  intros HS HN HF Sh S0 S1 R H.
  destruct (filter_split _ _ _ _ HF) as (a & r & -> & Ha & Hr). destruct (filter_split_last _ _ _ _ Hr) as (m & e & -> & Hm & He).
  rewrite map_app, stream_app in H. destruct (stream w (map encode a) S0) as [Sa [x|]] eqn:E1; [discriminate|].
  assert (Ra := run_reload w a S0 Sa None R E1). cbn [map] in H. rewrite stream_cons in H. destruct (handler w (encode (CAdd n b)) Sa) as [Sb [v|x]] eqn:E2; [|discriminate].
  cbn [encode] in E2. destruct (add_new w _ _ _ _ _ E2 Ra) as (_ & no & Hb). exists no.
  rewrite map_app, stream_app in H. destruct (stream w (map encode m) Sb) as [Sc [x|]] eqn:E3; [discriminate|].
  apply Forall_app in HN as [_ HN]. apply Forall_cons_iff in HN as [_ HN]. apply Forall_app in HN as [HNm HN]. apply Forall_cons_iff in HN as [_ HNe].
  destruct (run_mid w n m HS Sb Sc (new_jail no (py b))) as (J & Hc & Ef); auto; [now rewrite Hm|]. rewrite Hm in Ef. exists J. split; [exact Ef|].
  cbn [map] in H. rewrite stream_cons in H. destruct (handler w (encode (CStart n)) Sc) as [Sd [v'|x]] eqn:E4; [|discriminate]. cbn [encode] in E4.
  apply start_new with (J := J) in E4; [|exact Hc|rewrite (ef_filter _ _ _ _ Ef); reflexivity|rewrite (ef_actions _ _ _ _ Ef); reflexivity|rewrite (ef_idle _ _ _ _ Ef); reflexivity].
  rewrite <- E4. apply (run_others w n e Sd S1 None); auto. now apply filter_none_about.
Qed.

(** The jail is as the configuration says. *)
Lemma eff_set_up E force allow n c F s s' w no J : Stream_Spec.configured E force allow n c F s -> s = CAdd n (Stream_Proofs.backend_of (Stream_Model.j_opts c)) :: s' ->
  eff w s' (new_jail no (py (Stream_Proofs.backend_of (Stream_Model.j_opts c)))) J -> set_up E w c F (with_threads TRun TRun J) /\ NoDup (j_logs J).
Proof.
  intros HC Hs Ef.
  assert (T1 : forall k, Stream_Spec.told k s' = Stream_Spec.told k s) by (intros k; subst s; reflexivity).
  assert (T2 : forall k, Stream_Spec.told_added k s' = Stream_Spec.told_added k s) by (intros k; subst s; reflexivity).
  assert (T3 : forall k, Stream_Spec.told_words k s' = Stream_Spec.told_words k s) by (intros k; subst s; reflexivity).
  assert (T4 : Stream_Spec.told_logs s' = Stream_Spec.told_logs s) by (subst s; reflexivity).
  split; [|apply (ef_nodup _ _ _ _ Ef); constructor]. split; [constructor|].
  - cbn [j_backend with_threads]. rewrite (ef_backend _ _ _ _ Ef). reflexivity.
  - cbn [j_fail with_threads]. rewrite (ef_fail _ _ _ _ Ef), T2. cbn [j_fail new_jail app]. f_equal. change (tx "addfailregex") with (tx "add" ++ tx "failregex").
    apply (Stream_Props.C71_regexes E force allow n c F s HC). now left.
  - cbn [j_ignore with_threads]. rewrite (ef_ignore _ _ _ _ Ef), T2. cbn [j_ignore new_jail app]. f_equal. change (tx "addignoreregex") with (tx "add" ++ tx "ignoreregex").
    apply (Stream_Props.C71_regexes E force allow n c F s HC). right. now left.
  - cbn [j_ips with_threads]. rewrite (ef_ips _ _ _ _ Ef), T3, (Stream_Props.C71_ignoreip E force allow n c F s HC). cbn [j_ips new_jail app].
    destruct (dget (tx "ignoreip") (Stream_Model.j_opts c)); [|reflexivity]. cbn [concat]. now rewrite app_nil_r, map_py.
  - exists (Stream_Spec.told_logs s). split; [exact (Stream_Props.C71_logs E force allow n c F s HC)|].
    intros p. cbn [j_logs j_backend with_threads]. rewrite (ef_logs _ _ _ _ Ef), (ef_backend _ _ _ _ Ef). unfold told_log_names. rewrite T4, in_map_iff. cbn [j_logs new_jail].
    split; [intros [[]|[Hr ([f t] & <- & I)]]|intros [Hr (f & t & I & ->)]]; [split; [exact Hr|]; now exists f, t|]. right. split; [exact Hr|]. now exists (f, t).
  - intros k. cbn [j_opts with_threads]. rewrite (ef_opts _ _ _ _ Ef), T1. cbn [j_opts new_jail dget].
    assert (X : (if inb k one_value then match Stream_Spec.told k s with Some v => e_value w (str k) (py v) | None => None end else None) = taken w k (if inb k one_value then Stream_Spec.told k s else None))
      by (unfold taken; destruct (inb k one_value), (Stream_Spec.told k s); reflexivity).
    refine (eq_trans X _). f_equal. unfold says.
    destruct (inb k one_value) eqn:I.
    + apply inb_In in I. unfold one_value in I. destruct (inb k Stream_Spec.first_options) eqn:I1; [apply inb_In in I1; now apply (Stream_Props.C71_first E force allow n c F s HC)|].
      destruct (eqb_spec k (tx "datepattern")) as [->|N]; [apply (Stream_Props.C71_datepattern E force allow n c F s HC)|].
      rewrite !in_app_iff in I. destruct I as [I|[[I|[]]|I]]; [apply inb_In in I; congruence|congruence|]. pose proof I as I2. apply inb_In in I2. rewrite I2. now apply (Stream_Props.C71_settings E force allow n c F s HC).
    + apply inb_false in I. unfold one_value in I. rewrite !in_app_iff in I. destruct (inb k Stream_Spec.first_options) eqn:I1; [apply inb_In in I1; tauto|].
      destruct (eqb_spec k (tx "datepattern")) as [->|N]; [exfalso; apply I; right; left; now left|]. destruct (inb k Stream_Spec.plain_options) eqn:I2; [apply inb_In in I2; tauto|reflexivity].
Qed.
