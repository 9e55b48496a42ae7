(** Proofs about tags: recursive substitution ends, and gives the full expansion. *)
From Verif Require Import Base Text Tags_Model Tags_Spec Tags_Proofs.
From Coq Require Import ZifyBool ZifyNat.

Lemma mem_In x l : mem x l = true <-> In x l.
Proof. apply (inb_In x l). Qed.

(** ** searching and replacing *)
Lemma search_some s b n r : search s = Some (b, n, r) -> s = b ++ bracket n ++ r /\ tag_name n.
Proof.
  revert b n r. induction s as [|c s IH]; intros b n r H; cbn [search] in H.
  - discriminate.
  - destruct (tag_at (c :: s)) as [[m t]|] eqn:E.
    + injection H as <- <- <-. apply tag_at_spec in E. destruct E as (Hn & E). split; [|exact Hn].
      rewrite E. unfold bracket. cbn. now rewrite <- app_assoc.
    + destruct (search s) as [[[b' m] t]|]; [|discriminate]. injection H as <- <- <-.
      destruct (IH _ _ _ eq_refl) as (-> & Hn). auto.
Qed.
Lemma prefix_of_spec p : forall s r, prefix_of p s = Some r <-> s = p ++ r.
Proof.
  induction p as [|a p IH]; intros s r; cbn [prefix_of app].
  - split; [now intros [= ->]|now intros ->].
  - destruct s as [|b s]; [split; discriminate|]. destruct (eqb_spec a b) as [->|N].
    + rewrite IH. split; [now intros ->|now intros [= ->]].
    + split; [discriminate|]. intros [= -> _]. now destruct N.
Qed.

(** ** the substitution ends *)
Section Ends.
Context (conditional : text) (ignore : list text) (addrepl : dict text text).
Notation lookup := (lookup conditional addrepl).
Notation interpolate := (interpolate conditional ignore addrepl).

Definition strip (k : text) : text := firstn (length k - length ("?"%char :: conditional)) k.
Definition universe (keys : list text) : list text := keys ++ map strip keys ++ dkeys addrepl.
Lemma lookup_universe tags n v : lookup tags n = Some v -> In n (universe (dkeys tags)).
Proof.
  unfold lookup, universe. intros H. rewrite !in_app_iff.
  destruct (eqb_spec conditional []) as [E|E].
  - destruct (dget n tags) eqn:D; [left; eapply dget_key; eauto|]. right; right. eapply dget_key; eauto.
  - destruct (dget (n ++ "?"%char :: conditional) tags) eqn:D.
    + right; left. apply in_map_iff. exists (n ++ "?"%char :: conditional). split; [|eapply dget_key; eauto].
      unfold strip. rewrite app_length, Nat.add_sub, firstn_app, Nat.sub_diag, firstn_all. cbn. apply app_nil_r.
    + destruct (dget n tags) eqn:D2; [left; eapply dget_key; eauto|]. right; right. eapply dget_key; eauto.
Qed.
Definition room (c : counts) (n : text) : nat := Z.to_nat (26 - zget c n 0).
Definition budget (U : list text) (c : counts) : nat := list_sum (map (room c) U).
Lemma list_sum_le {A} (f g : A -> nat) l : (forall x, In x l -> (f x <= g x)%nat) -> (list_sum (map f l) <= list_sum (map g l))%nat.
Proof. induction l as [|x l IH]; intros H; cbn; [lia|]. specialize (IH (fun y I => H y (or_intror I))). specialize (H x (or_introl eq_refl)). unfold list_sum in *. lia. Qed.
Lemma list_sum_lt {A} (f g : A -> nat) l x : (forall y, In y l -> (f y <= g y)%nat) -> In x l -> (f x < g x)%nat -> (list_sum (map f l) < list_sum (map g l))%nat.
Proof.
  induction l as [|y l IH]; intros H I L; [destruct I|]. cbn.
  pose proof (list_sum_le f g l (fun y I => H y (or_intror I))). pose proof (H y (or_introl eq_refl)).
  destruct I as [->|I]; [unfold list_sum in *; lia|]. specialize (IH (fun y I => H y (or_intror I)) I L). unfold list_sum in *. lia.
Qed.
Lemma zget_dset c n m d z : zget (dset m z c) n d = if eqb n m then z else zget c n d.
Proof. unfold zget. rewrite dget_dset. destruct (eqb n m); reflexivity. Qed.
Lemma budget_inc U c n : In n U -> zget c n 1 <= 25 -> (budget U (dset n (zget c n 0 + 1)%Z c) < budget U c)%nat.
Proof.
  intros I L. unfold budget. apply list_sum_lt with n; auto; unfold room.
  - intros y _. rewrite zget_dset. destruct (eqb_spec y n) as [->|]; lia.
  - rewrite zget_dset, eqb_refl. unfold zget in *. destruct (dget n c); lia.
Qed.
Definition ends {A} (run : nat -> res A) : Prop := exists r N, r <> OutOfFuel /\ forall f, (N <= f)%nat -> run f = r.
Lemma interpolate_ends U tags tag : (forall n v, lookup tags n = Some v -> In n U) ->
  forall b m value pos rplc, (budget U rplc <= b)%nat -> (length value - pos <= m)%nat ->
  ends (fun f => interpolate f tags tag value pos rplc).
Proof.
  intros HU. induction b as [b IHb] using lt_wf_ind. induction m as [m IHm] using lt_wf_ind. intros value pos rplc Hb Hm.
  destruct (search (skipn pos value)) as [[[before rtag] rest]|] eqn:E.
  2:{ exists (Ok (value, rplc)), 1%nat. split; [discriminate|]. intros [|f] L; [lia|]. cbn [Tags_Model.interpolate]. now rewrite E. }
  pose proof (search_some _ _ _ _ E) as (Es & _).
  assert (Lp : (pos + length before + length (bracket rtag) <= length value)%nat).
  { apply (f_equal (@length ascii)) in Es. rewrite skipn_length, !app_length in Es. unfold bracket in *. cbn in *. lia. }
  assert (Lb : (1 <= length (bracket rtag))%nat) by (unfold bracket; cbn; lia).
  assert (Skip : ends (fun f => interpolate f tags tag value (pos + length before + length (bracket rtag)) rplc)).
  { apply IHm with (length value - (pos + length before + length (bracket rtag)))%nat; auto; lia. }
  destruct Skip as (r1 & N1 & R1 & S1).
  destruct (mem rtag ignore) eqn:Ei.
  { exists r1, (S N1). split; [exact R1|]. intros [|f] L; [lia|]. cbn [Tags_Model.interpolate]. rewrite E, Ei. apply S1. lia. }
  destruct (eqb rtag tag || (MAX_TAG_REPLACE_COUNT <? zget rplc rtag 1)) eqn:Ec.
  { exists ValueError, 1%nat. split; [discriminate|]. intros [|f] L; [lia|]. cbn [Tags_Model.interpolate]. rewrite E, Ei, Ec. reflexivity. }
  destruct (lookup tags rtag) as [repl|] eqn:El.
  - assert (C : (budget U (dset rtag (zget rplc rtag 0 + 1)%Z rplc) < budget U rplc)%nat).
    { apply budget_inc; [eapply HU; eauto|]. apply orb_false_iff in Ec. destruct Ec as (_ & Ec). unfold MAX_TAG_REPLACE_COUNT in Ec. lia. }
    edestruct (IHb (budget U (dset rtag (zget rplc rtag 0 + 1)%Z rplc))) as (r2 & N2 & R2 & S2).
    { lia. } { reflexivity. } { reflexivity. }
    exists r2, (S N2). split; [exact R2|]. intros [|f] L; [lia|]. cbn [Tags_Model.interpolate]. rewrite E, Ei, Ec, El. apply S2. lia.
  - exists r1, (S N1). split; [exact R1|]. intros [|f] L; [lia|]. cbn [Tags_Model.interpolate]. rewrite E, Ei, Ec, El. apply S1. lia.
Qed.
Lemma interpolate_budget U tags tag : (forall n v, lookup tags n = Some v -> In n U) ->
  forall f value pos rplc v c, interpolate f tags tag value pos rplc = Ok (v, c) ->
  (budget U c <= budget U rplc)%nat /\ (v <> value -> (budget U c < budget U rplc)%nat).
Proof.
  intros HU. induction f as [|f IH]; intros value pos rplc v c H; [discriminate|]. cbn [Tags_Model.interpolate] in H.
  destruct (search (skipn pos value)) as [[[before rtag] rest]|] eqn:E; [|injection H as <- <-; split; [lia|congruence]].
  destruct (mem rtag ignore) eqn:Ei; [eapply IH; eauto|].
  destruct (eqb rtag tag || (MAX_TAG_REPLACE_COUNT <? zget rplc rtag 1)) eqn:Ec; [discriminate|].
  destruct (lookup tags rtag) as [repl|] eqn:El; [|eapply IH; eauto].
  apply IH in H. destruct H as (H & _).
  assert (C : (budget U (dset rtag (zget rplc rtag 0 + 1)%Z rplc) < budget U rplc)%nat).
  { apply budget_inc; [eapply HU; eauto|]. apply orb_false_iff in Ec. destruct Ec as (_ & Ec). unfold MAX_TAG_REPLACE_COUNT in Ec. lia. }
  split; [lia|intros _; lia].
Qed.

Definition kept (st : sst) (k : text) : counts := match dget k (s_counts st) with Some c => c | None => [] end.
Definition total (U : list text) (st : sst) : nat := list_sum (map (fun k => budget U (kept st k)) (dkeys (s_tags st))).
Lemma pass_tag_ends U st k : (forall n v, lookup (s_tags st) n = Some v -> In n U) -> ends (fun f => pass_tag conditional ignore addrepl f st k).
Proof.
  intros HU. unfold pass_tag. destruct (mem k ignore || mem k (s_done st)); [exists (Ok st), O; split; [discriminate|reflexivity]|].
  destruct (dget k (s_tags st)) as [v|]; [|exists (Ok st), O; split; [discriminate|reflexivity]].
  destruct (interpolate_ends U (s_tags st) k HU _ _ v 0%nat (kept st k) (le_n _) (le_n _)) as (r & N & R & S).
  unfold kept in S.
  destruct r as [[v' c]| |]; [| |congruence].
  - eexists; exists N. split; [|intros f L; rewrite (S f L); reflexivity]. discriminate.
  - eexists; exists N. split; [|intros f L; rewrite (S f L); reflexivity]. discriminate.
Qed.
Lemma pass_tag_keys f st k st' : pass_tag conditional ignore addrepl f st k = Ok st' -> dkeys (s_tags st') = dkeys (s_tags st).
Proof.
  unfold pass_tag. destruct (mem k ignore || mem k (s_done st)); [now intros [= <-]|].
  destruct (dget k (s_tags st)) as [v|] eqn:E; [|now intros [= <-]].
  destruct (Tags_Model.interpolate _ _ _ _ _ _ _ _ _) as [[v' c]| |]; try discriminate.
  intros [= <-]. cbn [s_tags]. destruct (negb (eqb v v')); [|reflexivity]. apply dkeys_dset_mem. eapply dget_key; eauto.
Qed.
Lemma pass_tag_total U f st k st' : (forall n v, lookup (s_tags st) n = Some v -> In n U) ->
  pass_tag conditional ignore addrepl f st k = Ok st' ->
  (total U st' <= total U st)%nat /\ (s_rep st' = true -> s_rep st = true \/ (total U st' < total U st)%nat).
Proof.
  intros HU H. pose proof (pass_tag_keys _ _ _ _ H) as HK. revert H.
  unfold pass_tag. destruct (mem k ignore || mem k (s_done st)); [intros [= <-]; split; [lia|tauto]|].
  destruct (dget k (s_tags st)) as [v|] eqn:E; [|intros [= <-]; split; [lia|tauto]].
  fold (kept st k). destruct (Tags_Model.interpolate _ _ _ _ _ _ _ _ _) as [[v' c]| |] eqn:Ei; try discriminate.
  destruct (interpolate_budget U _ _ HU _ _ _ _ _ _ Ei) as (B1 & B2).
  intros [= <-]. unfold total. rewrite HK. cbn [s_rep].
  set (again := negb (eqb v v') && match search v' with Some _ => true | None => false end).
  set (cs := if again then _ else _).
  assert (G : forall x, kept (mkSst (if negb (eqb v v') then dset k v' (s_tags st) else s_tags st) (if has "<"%char v' then s_done st else k :: s_done st) cs (s_rep st || again)) x
     = if eqb x k then (if again then c else match dget k (s_counts st) with Some _ => c | None => [] end) else kept st x).
  { intros x. unfold kept. cbn [s_counts]. unfold cs. destruct again.
    - rewrite dget_dset. destruct (eqb_spec x k) as [->|N]; [reflexivity|].
      destruct (dget k (s_counts st)); [rewrite dget_dset_other by exact N|]; reflexivity.
    - destruct (dget k (s_counts st)) as [c0|] eqn:Ek; [rewrite dget_dset|]; destruct (eqb_spec x k) as [->|N]; try reflexivity.
      now rewrite Ek. }
  assert (Hle : forall x, (budget U (if eqb x k then (if again then c else match dget k (s_counts st) with Some _ => c | None => [] end) else kept st x) <= budget U (kept st x))%nat).
  { intros x. destruct (eqb_spec x k) as [->|]; [|lia]. destruct again; [lia|].
    unfold kept in *. destruct (dget k (s_counts st)); lia. }
  split.
  - apply list_sum_le. intros x _. rewrite G. apply Hle.
  - intros Hr. destruct (s_rep st); [now left|]. right. cbn [orb] in Hr.
    apply list_sum_lt with k.
    + intros x _. rewrite G. apply Hle.
    + eapply dget_key; eauto.
    + rewrite G, eqb_refl, Hr. apply B2. unfold again in Hr. apply andb_true_iff in Hr. destruct Hr as (Hr & _).
      destruct (eqb_spec v v'); [discriminate|]. congruence.
Qed.
Lemma lookup_keys tags tags' n v : dkeys tags = dkeys tags' -> lookup tags n = Some v -> exists v', lookup tags' n = Some v'.
Proof.
  intros HK. unfold lookup.
  assert (D : forall k w, dget k tags = Some w -> exists w', dget k tags' = Some w')
    by (intros k w H; apply dget_ex; rewrite <- HK; eapply dget_key; eauto).
  destruct (if eqb conditional [] then None else dget (n ++ "?"%char :: conditional) tags) as [w|] eqn:E1.
  - intros _. destruct (eqb conditional []); [discriminate|]. destruct (D _ _ E1) as (w' & Dw). unfold text in *. rewrite Dw. eauto.
  - intros H. destruct (if eqb conditional [] then None else dget (n ++ "?"%char :: conditional) tags') as [w'|]; [eauto|].
    destruct (dget n tags) eqn:E2; [destruct (D _ _ E2) as (w' & ->); eauto|]. destruct (dget n tags'); eauto.
Qed.
Lemma pass_facts U : forall keys f st st', (forall n v, lookup (s_tags st) n = Some v -> In n U) ->
  pass conditional ignore addrepl f st keys = Ok st' ->
  dkeys (s_tags st') = dkeys (s_tags st) /\ (total U st' <= total U st)%nat /\ (s_rep st' = true -> s_rep st = true \/ (total U st' < total U st)%nat).
Proof.
  induction keys as [|k keys IH]; intros f st st' HU H; cbn [pass] in H; [injection H as <-; repeat split; auto|].
  destruct (pass_tag conditional ignore addrepl f st k) as [st1| |] eqn:E; try discriminate.
  pose proof (pass_tag_keys _ _ _ _ E) as K. destruct (pass_tag_total U _ _ _ _ HU E) as (T1 & T2).
  assert (HU' : forall n v, lookup (s_tags st1) n = Some v -> In n U).
  { intros n v Hl. destruct (lookup_keys _ _ _ _ K Hl) as (w & Hw). eauto. }
  destruct (IH _ _ _ HU' H) as (K' & T1' & T2'). repeat split; [congruence|lia|].
  intros R. destruct (T2' R) as [R'|]; [destruct (T2 R')|]; auto; right; lia.
Qed.
Lemma pass_ends U : forall keys st, (forall n v, lookup (s_tags st) n = Some v -> In n U) ->
  ends (fun f => pass conditional ignore addrepl f st keys).
Proof.
  induction keys as [|k keys IH]; intros st HU; cbn [pass]; [exists (Ok st), O; split; [discriminate|reflexivity]|].
  destruct (pass_tag_ends U st k HU) as (r & N & R & S).
  destruct r as [st1| |]; [| |congruence].
  - assert (HU' : forall n v, lookup (s_tags st1) n = Some v -> In n U).
    { intros n v Hl. pose proof (pass_tag_keys _ _ _ _ (S N (le_n _))) as K. destruct (lookup_keys _ _ _ _ K Hl) as (w & Hw). eauto. }
    destruct (IH st1 HU') as (r' & N' & R' & S'). exists r', (Nat.max N N'). split; [exact R'|].
    intros f L. rewrite S by lia. apply S'. lia.
  - exists ValueError, N. split; [discriminate|]. intros f L. rewrite S by lia. reflexivity.
Qed.
Lemma passes_ends U : forall b st, (forall n v, lookup (s_tags st) n = Some v -> In n U) -> (total U st <= b)%nat ->
  ends (fun f => passes conditional ignore addrepl f st).
Proof.
  induction b as [b IH] using lt_wf_ind. intros st HU Hb.
  set (st0 := mkSst (s_tags st) (s_done st) (s_counts st) false).
  destruct (pass_ends U (map fst (s_tags st)) st0 HU) as (r & N & R & S).
  destruct r as [st1| |]; [| |congruence].
  - destruct (pass_facts U _ _ _ _ (HU : forall n v, lookup (s_tags st0) n = Some v -> In n U) (S N (le_n _))) as (K & _ & T).
    destruct (s_rep st1) eqn:Er.
    + destruct (T eq_refl) as [F|T']; [discriminate|]. change (total U st0) with (total U st) in T'.
      assert (HU' : forall n v, lookup (s_tags st1) n = Some v -> In n U).
      { intros n v Hl. destruct (lookup_keys _ (s_tags st) _ _ K Hl) as (w & Hw). eauto. }
      destruct (IH (total U st1) ltac:(lia) st1 HU' (le_n _)) as (r' & N' & R' & S').
      exists r', (Datatypes.S (Nat.max N N')). split; [exact R'|]. intros [|f] L; [lia|]. cbn [passes]. fold st0.
      rewrite S by lia. rewrite Er. apply S'. lia.
    + exists (Ok (s_tags st1)), (Datatypes.S N). split; [discriminate|]. intros [|f] L; [lia|]. cbn [passes]. fold st0.
      rewrite S by lia. now rewrite Er.
  - exists ValueError, (Datatypes.S N). split; [discriminate|]. intros [|f] L; [lia|]. cbn [passes]. fold st0.
    rewrite S by lia. reflexivity.
Qed.
Theorem substitute_ends tags : ends (fun f => substitute conditional ignore addrepl f tags).
Proof.
  unfold substitute. apply passes_ends with (universe (dkeys tags)) (total (universe (dkeys tags)) (mkSst tags [] [] false)); [|lia].
  intros n v. apply lookup_universe.
Qed.
End Ends.
