(** Lemmas about the opening of the database. *)
From Coq Require Import ZifyBool ZifyNat Permutation Sorted.
From Verif Require Import Base Ticket_Model Database_Model Database_Spec Database_Proofs DbOpen_Model DbOpen_Spec.
Local Open Scope string_scope.
Local Open Scope list_scope.
Local Open Scope Z_scope.

(** ** The newest bans *)
Lemma time_order_total x y : time_order x y = true \/ time_order y x = true.
Proof. unfold time_order. lia. Qed.
Lemma newest_from m : forall p d, latest_bans p d -> (forall a b, In a p -> In b m -> r_time a <= r_time b) ->
  StronglySorted (fun a b => time_order a b = true) m -> latest_bans (p ++ m) (fold_left (fun d r => dset (r_ip r, r_jail r) r d) m d).
Proof.
  induction m as [|r m IH]; intros p d L O S; cbn [fold_left]; [now rewrite app_nil_r|]. inversion S as [|? ? S' F]; subst.
  replace (p ++ r :: m) with ((p ++ [r]) ++ m) by (now rewrite <- app_assoc). apply IH; [|intros a b Ia Ib; apply in_app_or in Ia as [Ia|[<-|[]]]|exact S'].
  - intros ip j. destruct (eqb_spec (ip, j) (r_ip r, r_jail r)) as [E|N].
    + injection E as -> ->. rewrite dget_dset_same. split; [apply in_or_app; right; now left|]. split; [reflexivity|]. split; [reflexivity|].
      intros r' I _ _. apply in_app_or in I as [I|[<-|[]]]; [apply O; [exact I|now left]|lia].
    + rewrite dget_dset_other by exact N. specialize (L ip j). destruct (dget (ip, j) d) as [x|].
      * destruct L as (L1 & L2 & L3 & L4). split; [apply in_or_app; now left|]. split; [exact L2|]. split; [exact L3|].
        intros r' I E1 E2. apply in_app_or in I as [I|[<-|[]]]; [auto|]. exfalso. apply N. congruence.
      * intros r' I [E1 E2]. apply in_app_or in I as [I|[<-|[]]]; [now apply (L r' I)|]. apply N. congruence.
  - apply O; [exact Ia|now right].
  - rewrite Forall_forall in F. specialize (F b Ib). unfold time_order in F. lia.
Qed.
Lemma newest_spec l : latest_bans l (newest l []).
Proof.
  assert (H : latest_bans ([] ++ sort_by time_order l) (newest l [])).
  { apply newest_from.
    - intros ip j. cbn. intros r [].
    - intros a b [].
    - apply Sorted_StronglySorted; [|apply sort_by_sorted, time_order_total]. intros x y z. unfold time_order. lia. }
  cbn [app] in H. intros ip j. specialize (H ip j). destruct (dget (ip, j) (newest l [])) as [r|].
  - destruct H as (H1 & H2 & H3 & H4). split; [now apply In_sort_by in H1|]. split; [exact H2|]. split; [exact H3|]. intros r' I. apply H4. now apply In_sort_by.
  - intros r I. apply H. now apply In_sort_by.
Qed.
Lemma newest_wf l d : bips_ok d -> bips_ok (newest l d).
Proof.
  unfold newest. revert d. induction (sort_by time_order l) as [|r m IH]; intros d H; [exact H|]. cbn [fold_left]. apply IH. destruct H as [H1 H2]. split; [now apply dwf_dset|].
  intros k x I. assert (W : dwf (dset (r_ip r, r_jail r) r d)) by (now apply dwf_dset). apply (In_dget k x _ W) in I. destruct (eqb_spec k (r_ip r, r_jail r)) as [-> |N].
  - rewrite dget_dset_same in I. now injection I as <-.
  - rewrite dget_dset_other in I by exact N. apply dget_In in I. now apply H2.
Qed.

(** ** The upgrade *)
Definition final (f : file) (l : list row) : file := mkFile (Some [4]) (f_jails f) (f_logs f) (Some (BansNew l)) (Some (newest l [])).
Definition unfilled (f : file) (l : list row) : file := mkFile (Some [4]) (f_jails f) (f_logs f) (Some (BansNew l)) (Some []).
(** A database on its way from version [v]: [l] are the bans as they will be. *)
Record on_way (v : Z) (f : file) (l : list row) : Prop := {
  w_version : f_version f = Some [v];
  w_old : v < 4;
  w_bips : f_bips f = None;
  w_tables : exists js ls b, f_jails f = Some js /\ f_logs f = Some ls /\ f_bans f = Some b
    /\ logs_unique ls = true /\ forallb (fun r => jail_known f (l_jail r)) ls = true
    /\ l = (if v <? 3 then table_rows b else table_bans b) /\ (v <? 3 = false -> exists r, b = BansNew r)
    /\ forallb (fun r => jail_known f (r_jail r)) l = true }.
Lemma known_jails f f' : f_jails f' = f_jails f -> jail_known f' = jail_known f.
Proof. intros E. unfold jail_known. now rewrite E. Qed.
Lemma unknown_again b : table_rows (BansNew (table_rows b)) = table_rows b.
Proof. cbn. destruct b as [l|l]; cbn; rewrite map_map; reflexivity. Qed.

Lemma open_on_way dump d f v l : d_main d = Some (Good f) -> on_way v f l ->
  exists s, open_db dump d = (s, Opened) /\ o_disk s = mkDisk (Some (Good (final f l))) (match d_backup d with Some c => Some c | None => Some (Good f) end)
  /\ forall d', In d' (o_trace s) -> exists f', d_main d' = Some (Good f') /\ f_jails f' = f_jails f /\ f_logs f' = f_logs f
     /\ (d_backup d' = d_backup d /\ f' = f \/ d_backup d' = match d_backup d with Some c => Some c | None => Some (Good f) end)
     /\ ((exists v', on_way v' f' l) \/ f' = unfilled f l \/ f' = final f l).
Proof.
  intros M [Wv Wo Wb (js & ls & b & Ej & El & Eb & U & Kl & E & Bn & Kb)]. destruct f as [fv fj fl fb fp]. cbn in Wv, Wb, Ej, El, Eb. subst fv fp fj fl fb.
  set (f := mkFile (Some [v]) (Some js) (Some ls) (Some b) None) in *.
  unfold open_db, connect, main_content. cbn [o_disk]. rewrite M. cbn [f_version]. unfold f at 1. cbn [f_version].
  destruct (Z.eqb_spec v 4); [lia|]. destruct (Z.gtb_spec v 4); [lia|].
  unfold update, main_content. cbn [o_disk]. rewrite M.
  set (bk := match d_backup d with Some c => Some c | None => Some (Good f) end).
  set (s0 := match d_backup d with Some _ => mkOpen d [d] | None => put (mkDisk (Some (Good f)) (Some (Good f))) (mkOpen d [d]) end).
  assert (S0 : d_backup (o_disk s0) = bk) by (unfold s0, bk; destruct (d_backup d) as [c|] eqn:Eb; [exact Eb|reflexivity]).
  assert (T0 : forall d', In d' (o_trace s0) -> d_main d' = Some (Good f) /\ (d_backup d' = d_backup d \/ d_backup d' = bk)).
  { unfold s0, bk. destruct (d_backup d) as [c|] eqn:Eb; cbn; intros d' [<-|I]; [auto|destruct I|auto|]. destruct I as [<-|[]]. auto. }
  assert (W0 : on_way v f l).
  { split; auto. exists js, ls, b. repeat split; auto. }
  (* the logs *)
  set (v1 := if v <? 2 then 2 else v). set (f1 := mkFile (Some [v1]) (Some js) (Some ls) (Some b) None).
  assert (U1 : update_logs v f = Some f1).
  { unfold update_logs, f1, v1. destruct (v <? 2); [|reflexivity]. cbn [f f_logs]. rewrite U, Kl. reflexivity. }
  rewrite U1.
  assert (B1 : (v1 <? 3) = (v <? 3)) by (unfold v1; destruct (Z.ltb_spec v 2); lia).
  assert (W1 : on_way v1 f1 l).
  { split; [reflexivity|unfold v1; destruct (v <? 2); lia|reflexivity|]. exists js, ls, b. rewrite B1. repeat split; auto. }
  (* the bans *)
  set (f2 := mkFile (Some [v1]) (Some js) (Some ls) (Some (BansNew l)) None).
  assert (U2 : update_bans v f1 = Some f2).
  { unfold update_bans, f2. destruct (v <? 3) eqn:L3.
    - cbn [f1 f_bans]. rewrite <- E. rewrite (known_jails f f1 eq_refl), Kb. reflexivity.
    - destruct (Bn eq_refl) as (r & ->). cbn [table_bans] in E. subst r. reflexivity. }
  rewrite U2.
  assert (W2 : on_way v1 f2 l).
  { split; [reflexivity|unfold v1; destruct (v <? 2); lia|reflexivity|]. exists js, ls, (BansNew l). rewrite B1. repeat split; auto.
    - destruct (v <? 3); [rewrite E, unknown_again|]; reflexivity.
    - eauto. }
  assert (U3 : fill_bips (unfilled f l) = Some (final f l)).
  { unfold fill_bips. change (f_bans (unfilled f l)) with (Some (BansNew l)). cbv iota.
    replace (forallb (fun r => jail_known (unfilled f l) (r_jail r)) l) with true by (symmetry; exact Kb). reflexivity. }
  destruct (Z.ltb_spec v 4); [|lia]. change (f_bips f2) with (@None (dict (string * string) row)). cbv iota.
  change (add_bips f2) with (unfilled f l). rewrite U3. cbn [final f_version]. change (4 =? 4) with true. cbv iota.
  eexists. split; [reflexivity|]. split; [cbn [put_main put o_disk d_backup]; now rewrite S0|].
  intros d' I. cbn [put_main put o_trace o_disk d_backup In] in I. rewrite S0 in I.
  destruct I as [<-|[<-|[<-|[<-|I]]]].
  - exists (final f l). auto 7.
  - exists (unfilled f l). auto 7.
  - exists f2. repeat split; eauto.
  - exists f1. repeat split; eauto.
  - destruct (T0 d' I) as [A B]. exists f. repeat split; eauto. destruct B; auto.
Qed.

Lemma unique_logs ls : NoDup (map (fun l => (l_jail l, l_path l)) ls) -> logs_unique ls = true.
Proof.
  induction ls as [|r ls IH]; intros N; [reflexivity|]. inversion N as [|? ? N1 N2]; subst. cbn [logs_unique]. rewrite (IH N2), andb_true_r, negb_true_iff.
  destruct (existsb _ ls) eqn:X; [|reflexivity]. exfalso. apply existsb_exists in X as (r' & I & E). apply andb_true_iff in E as [E1 E2].
  destruct (eqb_spec (l_jail r) (l_jail r')); [|discriminate]. destruct (eqb_spec (l_path r) (l_path r')); [|discriminate]. apply N1. apply in_map_iff. exists r'. split; [congruence|exact I].
Qed.
Lemma known_in js f j : f_jails f = Some js -> in_jails js j -> jail_known f j = true.
Proof. intros E (e & G). unfold jail_known. rewrite E. unfold dmem. now rewrite G. Qed.
Lemma sound_on_way v f : sound v f -> v < 4 -> exists l, on_way v f l /\ same_bans (f_bans f) l.
Proof.
  intros [V (js & Ej & (ls & El & Kl & N) & B3 & B4 & P3 & _)] L.
  destruct (Z.ltb_spec v 3) as [L3|L3].
  - destruct (B3 L3) as (bs & Eb & Kb). exists (map new_row bs). split.
    + split; auto. exists js, ls, (BansOld bs). destruct (Z.ltb_spec v 3); [|lia]. split; [exact Ej|]. split; [exact El|]. split; [exact Eb|]. split; [now apply unique_logs|].
      split; [apply forallb_forall; intros r I; apply (known_in js); auto|]. split; [reflexivity|]. split; [discriminate|].
      apply forallb_forall. intros r I. apply in_map_iff in I as (o & <- & I). apply (known_in js); [exact Ej|]. exact (Kb o I).
    + rewrite Eb. cbn. clear. induction bs as [|o bs IH]; cbn; constructor; [|exact IH]. now repeat split.
  - destruct (B4 L3) as (bs & Eb & Kb). exists bs. split; [|now rewrite Eb].
    split; auto. exists js, ls, (BansNew bs). destruct (Z.ltb_spec v 3); [lia|]. split; [exact Ej|]. split; [exact El|]. split; [exact Eb|]. split; [now apply unique_logs|].
    split; [apply forallb_forall; intros r I; apply (known_in js); auto|]. split; [reflexivity|]. split; [eauto|].
    apply forallb_forall. intros r I. apply (known_in js); auto.
Qed.
Lemma open_current dump d f rest : d_main d = Some (Good f) -> f_version f = Some (4 :: rest) -> open_db dump d = (mkOpen d [d], Opened).
Proof. intros M V. unfold open_db, connect, main_content. cbn [o_disk]. now rewrite M, V. Qed.

Lemma known_back f js j : f_jails f = Some js -> jail_known f j = true -> in_jails js j.
Proof. intros E. unfold jail_known. rewrite E. unfold dmem, in_jails. destruct (dget j js) as [e|]; [eauto|discriminate]. Qed.
Lemma sound_final v f l f' bips : sound v f -> (exists v0 f0, on_way v0 f0 l /\ f_jails f0 = f_jails f) ->
  f' = mkFile (Some [4]) (f_jails f) (f_logs f) (Some (BansNew l)) (Some bips) -> sound 4 f'.
Proof.
  intros [V (js & Ej & (ls & El & Kl & N) & _)] (v0 & f0 & [_ _ _ (js0 & ls0 & b0 & Ej0 & _ & _ & _ & _ & _ & _ & Kb)] & Ej') ->.
  split; [reflexivity|]. exists js. split; [exact Ej|]. split; [exists ls; auto|]. split; [lia|]. split; [|split; [lia|intros _; eexists; reflexivity]].
  intros _. exists l. split; [reflexivity|]. intros b I. rewrite forallb_forall in Kb. specialize (Kb b I). apply (known_back f0); [congruence|exact Kb].
Qed.

(** ** Creation *)
Definition full (f : file) : file :=
  mkFile (match f_version f with None | Some [] => Some [4] | v => v end) (or_else (f_jails f) []) (or_else (f_logs f) [])
    (or_else (f_bans f) (BansNew [])) (or_else (f_bips f) []).
Lemma full_last f : last (create_steps f) f = full f.
Proof. destruct f as [[[|v r]|] j l b p]; reflexivity. Qed.
Lemma put_steps l : forall s f, o_disk s = mkDisk (d_main (o_disk s)) (d_backup (o_disk s)) ->
  let s' := fold_left (fun s f => put_main (Good f) s) l s in
  d_backup (o_disk s') = d_backup (o_disk s) /\ (l <> [] -> d_main (o_disk s') = Some (Good (last l f)))
  /\ forall d', In d' (o_trace s') -> In d' (o_trace s) \/ exists f', In f' l /\ d' = mkDisk (Some (Good f')) (d_backup (o_disk s)).
Proof.
  induction l as [|g l IH]; intros s f E; [cbn; repeat split; auto; congruence|]. cbn [fold_left].
  destruct (IH (put_main (Good g) s) f eq_refl) as (I1 & I2 & I3). split; [exact I1|]. split.
  - intros _. destruct l as [|g' l]; [reflexivity|]. rewrite I2 by discriminate. reflexivity.
  - intros d' I. destruct (I3 d' I) as [J|(f' & J & ->)].
    + cbn in J. destruct J as [<-|J]; [right; exists g; split; [now left|reflexivity]|now left].
    + right. exists f'. split; [now right|reflexivity].
Qed.
Lemma create_spec s f : main_content (o_disk s) = Good f ->
  o_disk (create s) = mkDisk (Some (Good (full f))) (d_backup (o_disk s))
  /\ forall d', In d' (o_trace (create s)) -> In d' (o_trace s) \/ exists f', In f' (create_steps f) /\ d' = mkDisk (Some (Good f')) (d_backup (o_disk s)).
Proof.
  intros M. unfold create. rewrite M. destruct (put_steps (create_steps f) s f) as (P1 & P2 & P3); [now destruct (o_disk s)|].
  split; [|exact P3]. assert (N : create_steps f <> []) by (unfold create_steps; discriminate). specialize (P2 N). rewrite full_last in P2.
  destruct (o_disk (fold_left _ (create_steps f) s)) as [m b]. cbn in P1, P2. congruence.
Qed.
Lemma steps_extend f f' : f_version f = None -> In f' (create_steps f) -> extends f f'.
Proof.
  intros V I. destruct f as [v j l b p]. cbn in V. subst v. unfold create_steps in I. cbn in I. unfold extends.
  destruct j, l, b, p; cbn in I; repeat (destruct I as [<-|I]; [cbn; repeat split; congruence|]); destruct I.
Qed.
Lemma full_current f : (f_version f = None \/ f_version f = Some [] \/ exists r, f_version f = Some (4 :: r)) -> current (full f).
Proof.
  intros V. unfold current, full. cbn. split; [destruct V as [-> |[-> |(r & ->)]]; eauto|].
  destruct (f_jails f), (f_logs f), (f_bans f), (f_bips f); cbn; repeat split; discriminate.
Qed.
Lemma full_id f : current f -> full f = f.
Proof.
  intros ((r & V) & J & L & B & P). destruct f as [v j l b p]. cbn in V, J, L, B, P. unfold full. cbn. rewrite V.
  destruct j; [|congruence]. destruct l; [|congruence]. destruct b; [|congruence]. destruct p; [|congruence]. reflexivity.
Qed.
Lemma sound_current v f : sound v f -> v = 4 -> current f.
Proof.
  intros [V (js & Ej & (ls & El & _) & _ & B & _ & P)] ->. destruct (B ltac:(lia)) as (bs & Eb & _). destruct (P ltac:(lia)) as (bips & Ep).
  unfold current. rewrite V, Ej, El, Eb, Ep. repeat split; try discriminate. eauto.
Qed.

(** ** The backup stays *)
Definition backed (T : list disk) (c : content) (s : open_st) : Prop :=
  d_backup (o_disk s) = Some c /\ forall d', In d' (o_trace s) -> In d' T \/ d_backup d' = Some c.
Lemma backed_put T c m s : backed T c s -> backed T c (put (mkDisk m (d_backup (o_disk s))) s).
Proof. intros [B1 B2]. split; [exact B1|]. cbn. intros d' [<-|I]; [now right|auto]. Qed.
Lemma backed_main T c x s : backed T c s -> backed T c (put_main x s).
Proof. apply backed_put. Qed.
Lemma backed_create T c s : backed T c s -> backed T c (create s).
Proof.
  intros B. unfold create. destruct (main_content (o_disk s)) as [|f]; [exact B|]. revert s B. induction (create_steps f) as [|g l IH]; intros s B; [exact B|].
  cbn [fold_left]. apply IH. now apply backed_main.
Qed.
Lemma backed_update T c v s : backed T c s -> backed T c (fst (update v s)).
Proof.
  intros B. unfold update. destruct (main_content (o_disk s)) as [|f]; [exact B|]. pose proof B as [B1 _]. rewrite B1.
  destruct (update_logs v f) as [f1|]; [|exact B]. destruct (update_bans v f1) as [f2|]; [|now apply backed_main].
  destruct (v <? 4); [|now repeat apply backed_main]. destruct (f_bips f2); [now repeat apply backed_main|].
  destruct (fill_bips (add_bips f2)); cbn [fst]; now repeat apply backed_main.
Qed.
Lemma backed_inner T c check s : backed T c s -> backed T c (fst (connect_inner check s)).
Proof.
  intros B. unfold connect_inner. destruct (main_content (o_disk s)) as [|f]; [exact B|].
  assert (H : forall x : open_st * result, backed T c (fst x) -> backed T c (fst (let '(s, r) := x in (if check then create s else s, r)))).
  { intros [s' r] H. cbn. destruct check; [now apply backed_create|exact H]. }
  apply H. clear H. destruct (f_version f) as [[|v r]|]; cbn [fst]; [exact B| |now apply backed_create].
  destruct (v =? 4); [exact B|]. destruct (v >? 4); [exact B|]. pose proof (backed_update T c v s B) as U. destruct (update v s) as [s' [v'|]]; exact U.
Qed.
Lemma backed_repair_from dump T c s : backed T c s -> backed T c (fst (
  let s := match dump c with Some c => put_main c s | None => s end in
  let '(s, r) := match d_main (o_disk s) with
                 | None => (s, Failed OSError)
                 | Some c => if is_empty c then (s, Failed RuntimeError) else connect_inner true s
                 end in
  match r with
  | Opened => (s, Opened)
  | Failed _ =>
      match d_main (o_disk s) with
      | None => (s, Failed OSError)
      | Some _ => connect_inner true (put (mkDisk None (d_backup (o_disk s))) s)
      end
  end)).
Proof.
  intros B. cbv zeta. assert (B1 : backed T c (match dump c with Some c => put_main c s | None => s end)).
  { destruct (dump c); [now apply backed_main|exact B]. }
  revert B1. generalize (match dump c with Some c => put_main c s | None => s end). clear s B. intros s B.
  assert (B1 : backed T c (fst (match d_main (o_disk s) with
                 | None => (s, Failed OSError)
                 | Some c => if is_empty c then (s, Failed RuntimeError) else connect_inner true s
                 end))).
  { destruct (d_main (o_disk s)) as [x|]; [|exact B]. destruct (is_empty x); [exact B|now apply backed_inner]. }
  destruct (match d_main (o_disk s) with Some _ => _ | None => _ end) as [s' r]. cbn [fst] in B1. destruct r; [exact B1|].
  destruct (d_main (o_disk s')); [|exact B1]. now apply backed_inner, backed_put.
Qed.
Lemma backed_repair dump T c s : backed T c s -> backed T c (fst (repair dump s)).
Proof.
  intros B. unfold repair. pose proof B as [B1 _]. rewrite B1. cbv zeta.
  assert (B2 : backed T c (match d_main (o_disk s) with Some _ => put (mkDisk None (Some c)) s | None => s end)).
  { destruct (d_main (o_disk s)); [|exact B]. rewrite <- B1. now apply backed_put. }
  pose proof B2 as [B3 _]. rewrite B3. now apply (backed_repair_from dump T c).
Qed.

(** ** Opening *)
Lemma new_opened check s : d_main (o_disk s) = None ->
  snd (connect_inner check s) = Opened /\ o_disk (fst (connect_inner check s)) = mkDisk (Some (Good (full empty_file))) (d_backup (o_disk s)).
Proof.
  intros M. unfold connect_inner, main_content. rewrite M. cbn [f_version empty_file]. cbn [fst snd].
  assert (M' : main_content (o_disk s) = Good empty_file) by (unfold main_content; now rewrite M).
  destruct (create_spec s empty_file M') as [E _]. destruct check; [|auto]. split; [reflexivity|].
  destruct (create_spec (create s) (full empty_file)) as [E' _]; [unfold main_content; now rewrite E|]. rewrite E', E. reflexivity.
Qed.
Lemma inner_current s g : main_content (o_disk s) = Good g -> current g -> connect_inner true s = (create s, Opened).
Proof. intros M ((r & V) & _). unfold connect_inner. now rewrite M, V. Qed.
(** An opened database of a repair has all its tables. *)
Lemma inner_opened s : d_backup (o_disk s) <> None -> snd (connect_inner true s) = Opened -> exists f, d_main (o_disk (fst (connect_inner true s))) = Some (Good f) /\ current f.
Proof.
  intros Bk. unfold connect_inner. destruct (main_content (o_disk s)) as [|f] eqn:M; [discriminate|].
  assert (H : forall s' f', main_content (o_disk s') = Good f' -> (f_version f' = None \/ f_version f' = Some [] \/ exists r, f_version f' = Some (4 :: r)) ->
    exists f, d_main (o_disk (create s')) = Some (Good f) /\ current f).
  { intros s' f' M' V'. exists (full f'). split; [|now apply full_current]. now rewrite (proj1 (create_spec s' f' M')). }
  destruct (f_version f) as [[|v r]|] eqn:V; cbn [fst snd]; [discriminate| |].
  - destruct (Z.eqb_spec v 4) as [-> |N].
    + intros _. apply (H s f M). eauto.
    + destruct (v >? 4); [discriminate|]. destruct (update v s) as [s' [v'|]] eqn:U; cbn [fst snd]; [|discriminate].
      destruct (Z.eqb_spec v' 4) as [-> |]; [|discriminate]. intros _.
      unfold update in U. rewrite M in U. destruct (d_backup (o_disk s)) as [bk|]; [|congruence]. destruct (update_logs v f) as [f1|]; [|discriminate].
      destruct (update_bans v f1) as [f2|]; [|discriminate].
      destruct (if v <? 4 then match f_bips f2 with Some _ => None | None => Some (add_bips f2) end else None) as [f3|].
      * destruct (fill_bips f3) as [f4|]; [|discriminate]. destruct (f_version f4) as [[|v4 r4]|] eqn:V4; try discriminate. injection U as <- ->. apply (H _ f4); [reflexivity|eauto].
      * destruct (f_version f2) as [[|v4 r4]|] eqn:V4; try discriminate. injection U as <- ->. apply (H _ f2); [reflexivity|eauto].
  - intros _. destruct (create_spec s f M) as [E _]. apply (H _ (full f)); [unfold main_content; now rewrite E|]. right. right. unfold full. cbn. rewrite V. eauto.
Qed.

(** An upgrade in a repair: the backup is there already. *)
Lemma update_on_way s f v l : o_disk s = mkDisk (Some (Good f)) (Some Corrupt) -> on_way v f l ->
  snd (update v s) = Some 4 /\ o_disk (fst (update v s)) = mkDisk (Some (Good (final f l))) (Some Corrupt).
Proof.
  intros M [Wv Wo Wb (js & ls & b & Ej & El & Eb & U & Kl & E & Bn & Kb)]. destruct f as [fv fj fl fb fp]. cbn in Wv, Wb, Ej, El, Eb. subst fv fp fj fl fb.
  set (f := mkFile (Some [v]) (Some js) (Some ls) (Some b) None) in *.
  unfold update, main_content. rewrite M. cbn [d_main d_backup].
  set (v1 := if v <? 2 then 2 else v). set (f1 := mkFile (Some [v1]) (Some js) (Some ls) (Some b) None).
  assert (U1 : update_logs v f = Some f1).
  { unfold update_logs, f1, v1. destruct (v <? 2); [|reflexivity]. cbn [f f_logs]. rewrite U, Kl. reflexivity. }
  rewrite U1. set (f2 := mkFile (Some [v1]) (Some js) (Some ls) (Some (BansNew l)) None).
  assert (U2 : update_bans v f1 = Some f2).
  { unfold update_bans, f2. destruct (v <? 3) eqn:L3.
    - cbn [f1 f_bans]. rewrite <- E. rewrite (known_jails f f1 eq_refl), Kb. reflexivity.
    - destruct (Bn eq_refl) as (r & ->). cbn [table_bans] in E. subst r. reflexivity. }
  rewrite U2.
  assert (U3 : fill_bips (unfilled f l) = Some (final f l)).
  { unfold fill_bips. change (f_bans (unfilled f l)) with (Some (BansNew l)). cbv iota.
    replace (forallb (fun r => jail_known (unfilled f l) (r_jail r)) l) with true by (symmetry; exact Kb). reflexivity. }
  destruct (Z.ltb_spec v 4); [|lia]. change (f_bips f2) with (@None (dict (string * string) row)). cbv iota.
  change (add_bips f2) with (unfilled f l). rewrite U3. cbn [fst snd final f_version]. split; [reflexivity|]. cbn [put_main put o_disk d_backup]. now rewrite M.
Qed.
Lemma update_backs v f : backed [mkDisk (Some (Good f)) None] (Good f) (fst (update v (mkOpen (mkDisk (Some (Good f)) None) [mkDisk (Some (Good f)) None]))).
Proof.
  set (d := mkDisk (Some (Good f)) None). unfold update, main_content. cbn [o_disk d d_main d_backup].
  set (s := put _ _). assert (B : backed [d] (Good f) s).
  { split; [reflexivity|]. cbn. intros d' [<-|[<-|[]]]; auto. }
  destruct (update_logs v f) as [f1|]; [|exact B]. destruct (update_bans v f1) as [f2|]; [|now apply backed_main].
  destruct (v <? 4); [|now repeat apply backed_main]. destruct (f_bips f2); [now repeat apply backed_main|].
  destruct (fill_bips (add_bips f2)); cbn [fst]; now repeat apply backed_main.
Qed.
(** The file is there after an attempt. *)
Lemma create_main s : d_main (o_disk s) <> None -> d_main (o_disk (create s)) <> None.
Proof.
  intros N. destruct (main_content (o_disk s)) as [|f] eqn:M; [unfold create; now rewrite M|]. rewrite (proj1 (create_spec s f M)). discriminate.
Qed.
Lemma inner_main s : d_main (o_disk s) <> None -> d_main (o_disk (fst (connect_inner true s))) <> None.
Proof.
  intros N. unfold connect_inner. destruct (main_content (o_disk s)) as [|f] eqn:M; [exact N|].
  destruct (f_version f) as [[|v r]|] eqn:V; cbn [fst].
  - now apply create_main.
  - destruct (v =? 4); [now apply create_main|]. destruct (v >? 4); [now apply create_main|].
    assert (U : d_main (o_disk (fst (update v s))) <> None).
    { unfold update. rewrite M. set (s0 := match d_backup (o_disk s) with Some _ => _ | None => _ end). assert (N0 : d_main (o_disk s0) <> None) by (unfold s0; destruct (d_backup (o_disk s)); exact N).
      destruct (update_logs v f) as [f1|]; [|exact N0]. destruct (update_bans v f1) as [f2|]; [|discriminate].
      destruct (v <? 4); [|discriminate]. destruct (f_bips f2); [discriminate|]. destruct (fill_bips (add_bips f2)); discriminate. }
    destruct (update v s) as [s' [v'|]]; cbn [fst] in *; now apply create_main.
  - now apply create_main, create_main.
Qed.
