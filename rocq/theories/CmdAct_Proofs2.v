(** Proofs about the life cycle of a command action: the operations and the calls. *)
From Verif Require Import Base CmdAct_Model CmdAct_Spec CmdAct_Proofs.

Definition ga_start (f : fam) (b : bool) (d : dict fam Z) := if b then dset f 1 d else d.
Definition ga_flush (f : fam) (b : bool) (d : dict fam Z) := if b && negb (sv d f =? 0) then dset f (Z.land (sv d f) (Z.lnot 2)) d else d.
Definition ga_id (f : fam) (b : bool) (d : dict fam Z) := d.
Lemma After_start : After KStart after_start ga_start.
Proof.
  split; intros f b s; unfold after_start, ga_start; destruct b; auto; destruct (op_del_same KStop f s) as (E1 & E2 & E3 & _ & E5); cbn; try congruence.
  intros k. apply op_del_exec.
Qed.
Lemma After_stop : After KStop after_stop ga_id.
Proof.
  split; intros f b s; unfold after_stop, ga_id; destruct b; auto; destruct (op_del_same KStart f s) as (E1 & E2 & E3 & _ & E5); cbn; try congruence.
  intros k. apply op_del_exec.
Qed.
Lemma After_flush : After KFlush after_flush ga_flush.
Proof.
  split; intros f b s; unfold after_flush, ga_flush; rewrite ?sv_started; destruct (b && negb (sv (s_started s) f =? 0)); auto.
Qed.
Lemma After_id : After KReload (fun _ _ s => s) ga_id.
Proof. split; auto. Qed.

(** events of a family do not touch the others *)
Lemma up_other f g k h tr : g <> f -> up g (Did k f h :: tr) = up g tr.
Proof. intros N. cbn. assert (E : eqb f g = false) by (apply eqb_neq; congruence). now rewrite E. Qed.
Lemma filled_other f g k h tr : g <> f -> filled g (Did k f h :: tr) = filled g tr.
Proof. intros N. cbn. assert (E : eqb f g = false) by (apply eqb_neq; congruence). now rewrite E. Qed.
Lemma Flags_set f v d k h tr : Flags d tr -> v = val (up f (Did k f h :: tr)) (filled f (Did k f h :: tr)) -> Flags (dset f v d) (Did k f h :: tr).
Proof.
  intros [Hd HF] ->. split; [now apply dwf_dset|]. intros g. rewrite sv_dset. destruct (eqb_spec g f) as [->|N]; [reflexivity|].
  rewrite up_other, filled_other by exact N. apply HF.
Qed.
Lemma Flags_keep f d k h tr : Flags d tr -> sv d f = val (up f (Did k f h :: tr)) (filled f (Did k f h :: tr)) -> Flags d (Did k f h :: tr).
Proof.
  intros [Hd HF] E. split; [exact Hd|]. intros g. destruct (eqb_spec g f) as [->|N]; [exact E|].
  rewrite up_other, filled_other by exact N. apply HF.
Qed.
Lemma Flags_nz d tr f : Flags d tr -> (sv d f =? 0) = negb (up f tr).
Proof.
  intros [_ H]. rewrite H. unfold val. destruct (up f tr); [|reflexivity]. now destruct (filled f tr).
Qed.
Lemma Flags_2 d tr f : Flags d tr -> (Z.land (sv d f) 2 =? 0) = negb (filled f tr).
Proof.
  intros [_ H]. rewrite H. unfold val. pose proof (filled_up f tr) as Hu. destruct (up f tr), (filled f tr); try reflexivity. now discriminate Hu.
Qed.
Lemma Flags_3 d tr f v : Flags d tr -> In (f, v) d -> (Z.land v 3 =? 3) = filled f tr.
Proof.
  intros [Hd H] Hin. apply In_dget in Hin; [|exact Hd]. specialize (H f). unfold sv in H. rewrite Hin in H. subst v.
  pose proof (filled_up f tr) as Hu. unfold val. destruct (up f tr), (filled f tr); try reflexivity. now discriminate Hu.
Qed.
Lemma up_did_start f h tr : good h = true -> up f (Did KStart f h :: tr) = true /\ filled f (Did KStart f h :: tr) = false.
Proof. intros E. cbn. rewrite eqb_refl, E. auto. Qed.
Lemma up_did_stop f h tr : up f (Did KStop f h :: tr) = false /\ filled f (Did KStop f h :: tr) = false.
Proof. cbn. now rewrite eqb_refl. Qed.

Definition fams_of (d : dict fam Z) (p : Z -> bool) : list fam := map fst (filter (fun kv => p (snd kv)) d).
Lemma fams_of_In d p f : dwf d -> p 0 = false -> In f (fams_of d p) <-> p (sv d f) = true.
Proof.
  intros Hd H0. unfold fams_of. rewrite in_map_iff. split.
  - intros ([g v] & E & Hin). cbn in E. subst g. apply filter_In in Hin as [Hin Hp]. apply In_dget in Hin; [|exact Hd].
    unfold sv. now rewrite Hin.
  - unfold sv. destruct (dget f d) as [v|] eqn:E; [|congruence]. intros Hp. exists (f, v). split; [reflexivity|].
    apply filter_In. split; [now apply dget_In|exact Hp].
Qed.
Lemma fams_of_NoDup d p : dwf d -> NoDup (fams_of d p).
Proof. intros Hd. exact (dwf_filter (fun kv => p (snd kv)) d Hd). Qed.

Section Ops.
Context (out : nat -> bool) (od : bool) (fams : list fam) (c0 : cfg).
Local Notation Inv := (Inv od fams c0).
Local Notation Core := (Core od fams c0).
Local Notation exec_one := (exec_one out).
Local Notation exec_all := (exec_all out).
Local Notation exec_operation := (exec_operation out).

Definition in_call (tr : list event) (a : api) (past : list event) : Prop := call_of tr = Some (a, past).
Lemma Core_did s s' k f h : Core s -> s_trace s' = Did k f h :: s_trace s -> s_cfg s' = s_cfg s ->
  Rec (s_cfg s) (s_exec s') (Did k f h :: s_trace s) -> allowed od fams (s_cfg s) (Did k f h) (s_trace s) -> Core s'.
Proof.
  intros (H1 & H2 & H3) Et Ec HR Hal. unfold CmdAct_Proofs.Core. rewrite Et, Ec. split; [exact HR|]. split; [split; [rewrite <- H3; exact Hal|exact H2]|exact H3].
Qed.

(** starting one family: [Hal] says that it may be started *)
Lemma start_one f s s' r : Inv s -> up f (s_trace s) = false ->
  (forall h, configured (s_cfg s) KStart f h -> sharing KStart f h (s_trace s) -> allowed od fams (s_cfg s) (Did KStart f h) (s_trace s)) ->
  exec_operation KStart [f] after_start s = (s', r) ->
  Inv s' /\ s_cfg s' = s_cfg s /\ s_epoch s' = s_epoch s /\ exists h, s_trace s' = Did KStart f h :: s_trace s /\ r = (if good h then Done else Raised).
Proof.
  intros [HC HF] Hu Hal. unfold CmdAct_Model.exec_operation. cbn [CmdAct_Model.exec_all].
  destruct (exec_one KStart after_start f s) as [s1 b] eqn:E1. intros E. injection E as <- <-.
  apply (exec_one_spec out KStart _ _ _ s _ _ After_start eq_refl (proj1 HC)) in E1 as (h & F1 & F2 & F3 & F3' & F4 & F5 & F5' & F6).
  split; [|split; [exact F3|split; [exact F3'|]]].
  - split; [apply (Core_did s _ KStart f h); auto|].
    rewrite F1, F6. subst b. destruct (good h) eqn:Eg.
    + destruct (up_did_start f h (s_trace s) Eg) as [U1 U2]. destruct h; try discriminate Eg; cbn [ga_start]; apply Flags_set; auto; rewrite U1, U2; reflexivity.
    + assert (Hn : neutral (Did KStart f h)) by (apply neutral_bad; auto; discriminate).
      unfold ga_start. replace (if match h with NoCmd => true | _ => false end then s_started s else s_started s) with (s_started s) by now destruct h.
      apply Flags_neutral; auto.
  - exists h. split; [exact F1|]. subst b. now rewrite andb_true_r.
Qed.
Lemma stop_one f s s' r : Inv s ->
  (forall h, configured (s_cfg s) KStop f h -> sharing KStop f h (s_trace s) -> allowed od fams (s_cfg s) (Did KStop f h) (s_trace s)) ->
  do_stop out (Some f) s = (s', r) ->
  Inv s' /\ s_cfg s' = s_cfg s /\ s_epoch s' = s_epoch s /\ up f (s_trace s') = false /\ call_of (s_trace s') = call_of (s_trace s)
  /\ (s_trace s' = s_trace s /\ dmem f (s_started s) = false \/ exists h, s_trace s' = Did KStop f h :: s_trace s).
Proof.
  intros [HC HF] Hal. unfold do_stop. destruct (dget f (s_started s)) as [v|] eqn:Ev.
  2:{ intros E. injection E as <- <-. split; [split; auto|]. split; [reflexivity|]. split; [reflexivity|]. split; [|split; [reflexivity|left; unfold dmem; now rewrite Ev]].
      destruct HF as [_ HF]. specialize (HF f). unfold sv in HF. rewrite Ev in HF. unfold val in HF.
      destruct (up f (s_trace s)); [|reflexivity]. destruct (filled f (s_trace s)); discriminate HF. }
  set (s0 := set_started f (Z.land v 0) s). unfold CmdAct_Model.exec_operation. cbn [CmdAct_Model.exec_all].
  destruct (exec_one KStop after_stop f s0) as [s1 b] eqn:E1. intros E. injection E as <- <-.
  apply (exec_one_spec out KStop _ _ _ s0 _ _ After_stop eq_refl (proj1 HC)) in E1 as (h & F1 & F2 & F3 & F3' & F4 & F5 & F5' & F6).
  change (s_trace s0) with (s_trace s) in *. change (s_cfg s0) with (s_cfg s) in *.
  destruct (up_did_stop f h (s_trace s)) as [U1 U2].
  split; [|split; [exact F3|split; [exact F3'|split]]].
  - split; [apply (Core_did s _ KStop f h); auto|].
    rewrite F1, F6. unfold ga_id. replace (if match h with NoCmd => true | _ => false end then s_started s0 else s_started s0) with (s_started s0) by now destruct h.
    unfold s0. cbn. rewrite Z.land_0_r. apply Flags_set; auto. now rewrite U1, U2.
  - now rewrite F1.
  - rewrite F1. split; [reflexivity|]. right. now exists h.
Qed.

(** executing one command of a family *)
Lemma execute_neutral k f cmd s s' b : Inv s -> allowed od fams (s_cfg s) (Did k f (Ran cmd b)) (s_trace s) ->
  k = KCheck -> execute out k f cmd s = (s', b) -> cmd <> ""%string ->
  Inv s' /\ s_cfg s' = s_cfg s /\ s_trace s' = Did k f (Ran cmd b) :: s_trace s /\ s_started s' = s_started s /\ s_epoch s' = s_epoch s.
Proof.
  intros [HC HF] Hal -> E Hc. apply execute_spec in E as (h & E1 & E2 & E3 & E4 & E5 & E5' & E6).
  destruct E6 as [[_ E6] | [-> _]]; [contradiction|].
  split; [|auto]. split.
  - apply (Core_plain od fams c0 s _ (Did KCheck f (Ran cmd b))); auto. now left.
  - rewrite E1, E3. apply Flags_neutral; auto. apply neutral_did. tauto.
Qed.
Lemma log_neutral e s : Inv s -> neutral e -> plain e -> allowed od fams (s_cfg s) e (s_trace s) -> Inv (log e s).
Proof.
  intros [HC HF] Hn Hp Hal. split.
  - apply (Core_plain od fams c0 s _ e); auto.
  - cbn. now apply Flags_neutral.
Qed.

(** the events of a check with repair *)
Definition repair_event (f : fam) (e : event) : Prop := exists k h, e = Did k f h /\ (k = KCheck \/ k = KStop \/ k = KStart \/ k = KRepair).
Definition may_check (f : fam) (tr : list event) : Prop :=
  during tr (fun a past => exists b, a = ACheck b) /\ up f tr = true
  \/ (exists k c r, tr = Did k f (Ran c false) :: r /\ (k = KBan \/ k = KReban \/ k = KUnban \/ k = KProlong)).
Definition Extends (f : fam) (force : bool) (s : st) (tr : list event) : Prop :=
  exists new, tr = new ++ s_trace s /\ (forall e, In e new -> repair_event f e)
    /\ (force = true -> forall c, c_cmd (s_cfg s) KCheck f = Some c -> c <> ""%string -> exists h, In (Did KCheck f h) new).
Lemma Extends_cons f force s tr k h : Extends f force s tr -> k = KCheck \/ k = KStop \/ k = KStart \/ k = KRepair -> Extends f force s (Did k f h :: tr).
Proof.
  intros (new & En & Hn & Hr) Hk. exists (Did k f h :: new). rewrite En. split; [reflexivity|]. split.
  - intros e [<-|He]; auto. eexists _, _. split; [reflexivity|auto].
  - intros H1 c H2 H3. destruct (Hr H1 c H2 H3) as (x & Hx). exists x. now right.
Qed.
Lemma Extends_check f force s h : Extends f force s (Did KCheck f h :: s_trace s).
Proof.
  exists [Did KCheck f h]. split; [reflexivity|]. split.
  - intros e [<-|[]]. eexists _, _. split; [reflexivity|auto].
  - intros _ c _ _. exists h. now left.
Qed.
(** what stands at the end of the trace if the check says that the environment is sane *)
Definition sane_end (f : fam) (force : bool) (s s' : st) : Prop :=
  s_trace s' = s_trace s /\ (c_cmd (s_cfg s) KCheck f = Some ""%string \/ force = false /\ dmem f (s_started s) = false)
  \/ (exists c r, s_trace s' = Did KCheck f (Ran c true) :: r)
  \/ force = false /\ exists h r, s_trace s' = Did KStop f h :: r.
Record Checked (f : fam) (before force : bool) (s s' : st) (o : option Z) : Prop := mkChecked {
  ck_inv : Inv s';
  ck_cfg : s_cfg s' = s_cfg s;
  ck_new : Extends f force s (s_trace s');
  ck_val : o = None \/ o = Some 0 \/ o = Some 1 \/ o = Some (-1) /\ before = false;
  ck_bad : o = Some 0 -> exists k c r, s_trace s' = Did k f (Ran c false) :: r /\ (k = KCheck \/ k = KRepair);
  ck_up : o = Some 1 \/ o = Some (-1) -> force = true -> up f (s_trace s) = true -> up f (s_trace s') = true;
  ck_sane : o = Some 1 -> sane_end f force s s';
  ck_try : before = true -> forall c, s_trace s' <> Did KCheck f (Ran c false) :: s_trace s;
  ck_epoch : s_epoch s' - repairs (s_trace s') = s_epoch s - repairs (s_trace s) }.
Lemma call_of_app new tr : (forall e, In e new -> forall a, e <> Call a) -> call_of (new ++ tr) = call_of tr.
Proof.
  induction new as [|e n IH]; intros H; [reflexivity|]. cbn. specialize (H e (or_introl eq_refl)) as He.
  destruct e; [now destruct (He a)| |]; apply IH; intros e' H' a; apply H; now right.
Qed.
Lemma longer {A} (l : list A) x y m : l = x :: m -> forall n, m = y ++ n -> y <> [] -> forall z, l <> z :: n.
Proof. intros -> n -> Hy z E. injection E as _ E. apply (f_equal (@length A)) in E. rewrite app_length in E. destruct y; [contradiction|cbn in E; lia]. Qed.
Lemma repairs_check f h tr : repairs (Did KCheck f h :: tr) = repairs tr. Proof. reflexivity. Qed.
Lemma repairs_after f k h c r : k = KStart \/ k = KStop \/ k = KRepair -> repairs (Did k f h :: Did KCheck f (Ran c false) :: r) = 1 + repairs (Did KCheck f (Ran c false) :: r).
Proof. intros [-> | [-> | ->]]; cbn [repairs]; rewrite eqb_refl; reflexivity. Qed.
Lemma repairs_other e tr : (forall g c r, tr <> Did KCheck g (Ran c false) :: r) -> repairs (e :: tr) = repairs tr.
Proof.
  intros H. cbn. destruct e as [a|[] f h|f]; try reflexivity; destruct tr as [|[a'|[] g [cmd []| | |]|g] r]; try reflexivity; now destruct (H g cmd r).
Qed.

Lemma again_spec f before force check s0 s s' o k h r : Inv s -> s_cfg s = s_cfg s0 -> check <> ""%string ->
  c_check (s_cfg s) = true -> c_cmd (s_cfg s) KCheck f = Some check ->
  Extends f force s0 (s_trace s) ->
  s_trace s = Did k f h :: r -> (exists y, r = y ++ s_trace s0 /\ y <> []) ->
  (k = KStop /\ force = false \/ good h = true /\ (k = KStart \/ k = KRepair)) ->
  up f (s_trace s) = (if kind_eqb k KStop then false else true) ->
  (s_epoch s - repairs (s_trace s) = s_epoch s0 - repairs (s_trace s0)) ->
  (if started s f =? 0 then (s, Some 1) else let '(s, ok) := execute out KCheck f check s in (s, Some (if ok then 1 else 0))) = (s', o) ->
  Checked f before force s0 s' o.
Proof.
  intros HI Hcfg Hck Hcc Hcmd Hext Ht Hlong Hk Hup Hep. rewrite sv_started, (Flags_nz _ _ f (proj2 HI)), Hup.
  destruct Hk as [[-> ->] | [Hg Hk]].
  - cbn [kind_eqb negb]. intros E. injection E as <- <-. split; auto; try discriminate.
    + intros _. right. right. split; [reflexivity|]. exists h, r. exact Ht.
    + intros _ c E. rewrite Ht in E. discriminate E.
  - assert (Hks : kind_eqb k KStop = false) by (destruct Hk as [-> | ->]; reflexivity). rewrite Hks. cbn [negb].
    destruct (execute out KCheck f check s) as [s1 ok] eqn:Ex. intros E. injection E as <- <-.
    apply execute_neutral in Ex as (G1 & G2 & G3 & G4 & G5); auto.
    + split.
      * exact G1.
      * congruence.
      * rewrite G3. apply Extends_cons; auto.
      * destruct ok; auto.
      * destruct ok; [discriminate|]. intros _. rewrite G3. eexists _, _, _. split; [reflexivity|]. auto.
      * intros _ _ _. rewrite G3. cbn. rewrite eqb_refl, Hup, Hks. reflexivity.
      * destruct ok; [|discriminate]. intros _. right. left. rewrite G3. eauto.
      * intros _ c. destruct Hlong as (y & Hy & Hny). rewrite G3, Ht. apply (longer _ (Did KCheck f (Ran check ok)) (Did k f h :: y) (Did k f h :: y ++ s_trace s0)); [now rewrite <- Hy|reflexivity|discriminate].
      * rewrite G3, G5, repairs_check. exact Hep.
    + cbn. split; [auto|]. split; [exact Hcc|]. right. right. exists k, h, r. auto.
Qed.

Lemma check_spec f before force s s' o a past : Inv s -> may_check f (s_trace s) -> in_call (s_trace s) a past ->
  (before = true -> may_repair (s_cfg s) a) -> (force = false -> a = AUnban f) -> (od = true -> force = true -> a <> AUnban f) -> c_check (s_cfg s) = true ->
  invariant_check out od fams f before force s = (s', o) -> Checked f before force s s' o.
Proof.
  intros HI Hmay Hcall Hrep Hfa Hfa' Hcc. unfold invariant_check.
  assert (Hself : (c_cmd (s_cfg s) KCheck f = Some ""%string \/ force = false /\ dmem f (s_started s) = false) -> Checked f before force s s (Some 1)).
  { intros Hse. split; auto; try discriminate.
    - exists []. split; [reflexivity|]. split; [intros e []|]. intros Hf c Hc Hne. destruct Hse as [Hse|[Hse _]]; congruence.
    - intros _. left. auto.
    - intros _ c E. apply (f_equal (@length event)) in E. cbn in E. lia. }
  destruct (negb force && negb (dmem f (s_started s))) eqn:Ef.
  { intros E. injection E as <- <-. apply Hself. right. apply andb_true_iff in Ef as [E1 E2]. split; now apply negb_true_iff. }
  assert (Hal : forall h, configured (s_cfg s) KCheck f h -> allowed od fams (s_cfg s) (Did KCheck f h) (s_trace s)).
  { intros h Hconf. cbn. split; [exact Hconf|]. split; [exact Hcc|]. destruct Hmay as [H|H]; auto. }
  destruct (c_cmd (s_cfg s) KCheck f) as [check|] eqn:Ecmd.
  2:{ intros E. injection E as <- <-. split; auto; try discriminate; try (intros [Ex0|Ex0]; discriminate Ex0).
      - apply log_neutral; auto; [apply neutral_did; auto|now left].
      - apply Extends_check. }
  destruct (eqb_spec check ""%string) as [->|Nc].
  { intros E. injection E as <- <-. apply Hself. auto. }
  destruct (execute out KCheck f check s) as [s1 ok] eqn:Ex.
  apply execute_neutral in Ex as (HI1 & Hc1 & Ht1 & Hs1 & He1); auto.
  2:{ apply Hal. cbn. auto. }
  destruct ok.
  { intros E. injection E as <- <-. split; auto; try discriminate.
    - rewrite Ht1. apply Extends_check.
    - intros _ _ Hu. rewrite Ht1. cbn. now rewrite eqb_refl.
    - intros _. right. left. rewrite Ht1. eauto.
    - intros _ c E. rewrite Ht1 in E. discriminate E.
    - rewrite Ht1, He1. reflexivity. }
  destruct before; cbn [negb].
  2:{ intros E. injection E as <- <-. split; auto; try discriminate.
      - rewrite Ht1. apply Extends_check.
      - intros _ _ Hu. rewrite Ht1. cbn. now rewrite eqb_refl.
      - rewrite Ht1, He1. reflexivity. }
  specialize (Hrep eq_refl).
  set (s2 := mkSt (s_cfg s1) _ _ _ _ _).
  assert (HI2 : Inv s2) by exact HI1. assert (Ht2 : s_trace s2 = Did KCheck f (Ran check false) :: s_trace s) by exact Ht1.
  assert (Hc2 : s_cfg s2 = s_cfg s) by exact Hc1. assert (He2 : s_epoch s2 = s_epoch s + 1) by (cbn; now rewrite He1).
  assert (Hs2 : s_started s2 = s_started s) by exact Hs1. clearbody s2.
  assert (Hck : check_failed f (s_trace s2)) by (unfold check_failed; rewrite Ht2; eauto).
  assert (Hcall2 : in_call (s_trace s2) a past) by (rewrite Ht2; exact Hcall).
  assert (Hnew2 : Extends f force s (s_trace s2)) by (rewrite Ht2; apply Extends_check).
  rewrite Hc2. destruct (c_cmd (s_cfg s) KRepair f) as [repair|] eqn:Erep.
  2:{ intros E. injection E as <- <-. split; auto; try discriminate; try (intros [Ex0|Ex0]; discriminate Ex0).
      - apply log_neutral; auto; [apply neutral_NoCmd|now right|]. cbn. rewrite Hc2. split; [exact Erep|]. split; [exact Hck|]. exists a, past. auto.
      - cbn. apply Extends_cons; auto.
      - cbn [s_trace s_epoch log]. rewrite Ht2, repairs_after, He2 by auto. rewrite repairs_check. lia. }
  destruct (eqb_spec repair ""%string) as [->|Nr].
  - destruct (do_stop out (Some f) s2) as [s3 r3] eqn:Es. apply stop_one in Es as (HI3 & Hc3 & He3 & Hu3 & Hcl3 & Ht3); auto.
    2:{ intros h Hconf Hsh. cbn. rewrite Hc2 in *. split; [exact Hconf|]. split; [|exact Hsh]. right. split; [exact Hck|]. split; [exists a, past; auto|exact Erep]. }
    assert (Hnew3 : Extends f force s (s_trace s3)).
    { destruct Ht3 as [[Ht3 _] | (h & Ht3)]; rewrite Ht3; [auto|]. apply Extends_cons; auto. }
    assert (Hcall3 : in_call (s_trace s3) a past) by (unfold in_call; rewrite Hcl3; exact Hcall2).
    destruct (do_start out od fams (Some f) (force || negb od) s3) as [s4 r4] eqn:Est. unfold do_start in Est.
    rewrite sv_started, (Flags_nz _ _ f (proj2 HI3)), Hu3 in Est. cbn [negb] in Est. rewrite orb_false_r in Est.
    destruct (negb (force || negb od) && od) eqn:Eskip.
    + injection Est as <- <-. assert (Hfo : force = false) by (destruct force; [discriminate Eskip|reflexivity]). subst force.
      destruct Ht3 as [[Ht3 Hm] | (h & Ht3)].
      { rewrite Hs2 in Hm. rewrite Hm in Ef. discriminate Ef. }
      intros E. apply (again_spec f true false check s s3 s' o KStop h (s_trace s2)); auto; try congruence.
      * exists [Did KCheck f (Ran check false)]. split; [exact Ht2|discriminate].
      * rewrite He3, He2, Ht3, Ht2, repairs_after by auto. rewrite repairs_check. lia.
    + assert (Hodf : od = true -> force = true).
      { intros ->. destruct force; auto; discriminate Eskip. }
      apply start_one in Est as (HI4 & Hc4 & He4 & h & Ht4 & Hr4); auto.
      2:{ intros h Hconf Hsh. cbn. rewrite Hc3, Hc2 in *. split; [exact Hconf|]. split; [|exact Hsh]. right. right. split; [exact Hu3|].
          split; [exists a, past; split; [exact Hcall3|]; split; [exact Hrep|]; intros Ho; apply Hfa'; auto|].
          split; [exact Erep|]. destruct Ht3 as [[Ht3 _] | (h3 & Ht3)]; rewrite Ht3; [auto|]. right. exists h3, (s_trace s2). auto. }
      assert (Hnew4 : Extends f force s (s_trace s4)) by (rewrite Ht4; apply Extends_cons; auto).
      assert (Hep4 : s_epoch s4 - repairs (s_trace s4) = s_epoch s - repairs (s_trace s)).
      { rewrite He4, He3, He2, Ht4. destruct Ht3 as [[Ht3 _] | (h3 & Ht3)]; rewrite Ht3, Ht2.
        - rewrite repairs_after by auto. rewrite repairs_check. lia.
        - rewrite repairs_other by discriminate. rewrite repairs_after by auto. rewrite repairs_check. lia. }
      destruct (good h) eqn:Eg; subst r4.
      * intros E. apply (again_spec f true force check s s4 s' o KStart h (s_trace s3)); auto; try congruence.
        -- destruct Ht3 as [[Ht3 _] | (h3 & Ht3)]; rewrite Ht3, Ht2.
           ++ exists [Did KCheck f (Ran check false)]. split; [reflexivity|discriminate].
           ++ exists [Did KStop f h3; Did KCheck f (Ran check false)]. split; [reflexivity|discriminate].
        -- rewrite Ht4. apply (proj1 (up_did_start f h (s_trace s3) Eg)).
      * intros E. injection E as <- <-. split; auto; try discriminate; try (intros [Ex0|Ex0]; discriminate Ex0); try congruence.
  - destruct (execute out KRepair f repair s2) as [s3 ok] eqn:Er. apply execute_spec in Er as (h & E1 & E2 & E3 & E4 & E5 & E5' & E6).
    destruct E6 as [[_ E6] | [-> _]]; [contradiction|].
    assert (Hcore : Core s3).
    { apply (Core_plain od fams c0 s2 _ (Did KRepair f (Ran repair ok))); auto; [apply HI2|now left|]. cbn. rewrite Hc2. split; [auto|]. split; [exact Hck|]. exists a, past. auto. }
    assert (Hnew3 : Extends f force s (s_trace s3)) by (rewrite E1; apply Extends_cons; auto).
    assert (Hep3 : s_epoch s3 - repairs (s_trace s3) = s_epoch s - repairs (s_trace s)).
    { rewrite E5', He2, E1, Ht2, repairs_after by auto. rewrite repairs_check. lia. }
    destruct ok.
    + assert (HI4 : Inv (set_started f 1 s3)).
      { split; [exact Hcore|]. cbn. rewrite E1, E3. apply Flags_set; [apply HI2|]. cbn. now rewrite eqb_refl. }
      intros E. apply (again_spec f true force check s (set_started f 1 s3) s' o KRepair (Ran repair true) (s_trace s2)); auto; try (cbn; congruence).
      * exists [Did KCheck f (Ran check false)]. split; [exact Ht2|discriminate].
      * cbn. rewrite E1. cbn. now rewrite eqb_refl.
    + intros E. injection E as <- <-. split; auto; try discriminate; try (intros [Ex0|Ex0]; discriminate Ex0).
      * split; [exact Hcore|]. cbn. rewrite E1, E3. apply Flags_set; [apply HI2|]. cbn. now rewrite eqb_refl.
      * cbn. congruence.
      * intros _. cbn. rewrite E1. eexists _, _, _. split; [reflexivity|]. auto.
      * intros _ c E. cbn in E. rewrite E1 in E. discriminate E.
Qed.
End Ops.
