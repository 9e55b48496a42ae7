(** Proofs about the life cycle of a command action. *)
From Verif Require Import Base CmdAct_Model CmdAct_Spec.

Definition val (u fl : bool) : Z := if u then if fl then 3 else 1 else 0.
Definition sv (d : dict fam Z) (f : fam) : Z := match dget f d with Some v => v | None => 0 end.
Definition Flags (d : dict fam Z) (tr : list event) : Prop := dwf d /\ forall f, sv d f = val (up f tr) (filled f tr).
Lemma filled_up f tr : filled f tr = true -> up f tr = true.
Proof.
  induction tr as [|e r IH]; [discriminate|]. destruct e as [[]|k g h|g]; cbn; auto.
  - destruct (eqb g f); [|exact IH]. destruct k; auto; try discriminate.
    + destruct (good h); cbn; auto.
    + destruct (good h); cbn; auto.
    + destruct (good h); cbn; auto.
    + destruct (good h); cbn; auto. discriminate.
    + destruct h; auto; discriminate.
  - destruct (eqb g f); [discriminate|exact IH].
Qed.
Lemma kind_eqb_refl k : kind_eqb k k = true. Proof. now destruct k. Qed.
Lemma kind_eqb_true k k' : kind_eqb k k' = true -> k = k'. Proof. destruct k, k'; (reflexivity || discriminate). Qed.
Lemma sv_dset d f g v : sv (dset f v d) g = if eqb g f then v else sv d g.
Proof. unfold sv. rewrite dget_dset. now destruct (eqb g f). Qed.
Lemma sv_started s f : started s f = sv (s_started s) f. Proof. reflexivity. Qed.
Lemma In_dset {K V} {EK : EqB K} (k : K) (v : V) d x : In x (dset k v d) -> x = (k, v) \/ In x d.
Proof.
  induction d as [|[k1 v1] r IH]; cbn; [intros [<-|[]]; auto|].
  destruct (eqb_spec k k1) as [->|N]; cbn.
  - intros [<-|H]; auto.
  - intros [<-|H]; auto. apply IH in H as [H|H]; auto.
Qed.

(** neutral events *)
Definition neutral (e : event) : Prop :=
  forall f tr, up f (e :: tr) = up f tr /\ filled f (e :: tr) = filled f tr.
Lemma neutral_call a : a <> AStop -> neutral (Call a).
Proof. intros H f tr. destruct a; cbn; auto. contradiction. Qed.
Lemma neutral_did k g h : k = KUnban \/ k = KProlong \/ k = KReload \/ k = KCheck -> neutral (Did k g h).
Proof. intros H f tr. cbn. destruct (eqb g f); [|auto]. destruct H as [-> | [-> | [-> | ->]]]; auto. Qed.
Lemma neutral_bad k g h : good h = false -> k <> KStop -> k <> KRepair -> neutral (Did k g h).
Proof. intros E H1 H2 f tr. cbn. destruct (eqb g f); [|auto]. rewrite E. destruct k; cbn; auto; contradiction. Qed.
Lemma neutral_NoCmd g : neutral (Did KRepair g NoCmd).
Proof. intros f tr. cbn. now destruct (eqb g f). Qed.
Lemma Flags_neutral e d tr : neutral e -> Flags d tr -> Flags d (e :: tr).
Proof. intros H [Hd HF]. split; [exact Hd|]. intros f. destruct (H f tr) as [-> ->]. apply HF. Qed.

(** the record of the commands that ran, against the trace *)
Definition op_kind (k : kind) : bool := match k with KStart | KStop | KFlush | KReload => true | _ => false end.
Record RecK (cf : cfg) (d : dict fam string) (k : kind) (tr : list event) : Prop := mkRecK {
  rk_wf : dwf d;
  rk_cfg : forall g c, dget g d = Some c -> c_cmd cf k g = Some c;
  rk_ran : forall g c, dget g d = Some c -> exists x, valid_since k x (Did k x (Ran c true)) tr /\ dget x d = Some c;
  rk_own : forall g c, dget g d = Some c -> valid_since k g (Did k g (Ran c true)) tr \/ valid_since k g (Did k g (Shared c)) tr;
  rk_all : forall x c r1 r2, tr = r1 ++ Did k x (Ran c true) :: r2 -> existsb (voids_some k) r1 = false -> dget x d = Some c }.
Definition Rec (cf : cfg) (ex : kind -> dict fam string) (tr : list event) : Prop :=
  forall k, op_kind k = true -> RecK cf (ex k) k tr.

Lemma voids_voids_some k g e : voids k g e = true -> voids_some k e = true.
Proof.
  destruct e as [[]|k' f h|f]; cbn; auto.
  - intros H. apply andb_true_iff in H as [_ H]. now rewrite eqb_refl.
  - destruct k; auto. intros H. apply eqb_refl.
Qed.
Lemma valid_cons k g e e' tr : valid_since k g e tr -> voids k g e' = false -> valid_since k g e (e' :: tr).
Proof. intros (r1 & r2 & -> & H) Hv. exists (e' :: r1), r2. split; [reflexivity|]. cbn. now rewrite Hv. Qed.
Lemma valid_head k g e tr : valid_since k g e (e :: tr).
Proof. exists [], tr. auto. Qed.
Lemma tail_split {A} (e : A) tr x r1 r2 : e :: tr = r1 ++ x :: r2 -> r1 = [] /\ e = x /\ tr = r2 \/ exists r1', r1 = e :: r1' /\ tr = r1' ++ x :: r2.
Proof. destruct r1 as [|y r1]; intros E; injection E as -> ->; [left; auto|right; eauto]. Qed.

(** an event that is nothing to the record *)
Lemma RecK_skip cf d k tr e : RecK cf d k tr -> voids_some k e = false -> (forall x c, e <> Did k x (Ran c true)) -> RecK cf d k (e :: tr).
Proof.
  intros [H1 H2 H3 H4 H5] Hv Hn. assert (Hv' : forall g, voids k g e = false).
  { intros g. destruct (voids k g e) eqn:E; auto. apply voids_voids_some in E. congruence. }
  split; auto.
  - intros g c Hg. destruct (H3 g c Hg) as (x & Hx & Hd). exists x. split; [now apply valid_cons|exact Hd].
  - intros g c Hg. destruct (H4 g c Hg) as [H|H]; [left|right]; now apply valid_cons.
  - intros x c r1 r2 E Hr. apply tail_split in E as [(-> & -> & ->) | (r1' & -> & ->)]; [now destruct (Hn x c)|].
    cbn in Hr. apply orb_false_iff in Hr as [_ Hr]. eauto.
Qed.
(** an event that makes [f]'s command void *)
Definition del_same (f : fam) (d : dict fam string) : dict fam string :=
  match dget f d with None => d | Some c => filter (fun kv => negb (eqb (snd kv) c)) (ddel f d) end.
Lemma dget_del_same f d g : dwf d -> dget g (del_same f d) =
  match dget f d with None => dget g d | Some c => match dget g d with Some c' => if eqb g f || eqb c' c then None else Some c' | None => None end end.
Proof.
  intros Hd. unfold del_same. destruct (dget f d) as [c|] eqn:Ef; [|reflexivity].
  rewrite dget_filter by now apply dwf_ddel. rewrite dget_ddel by exact Hd. destruct (eqb_spec g f) as [->|N]; cbn.
  - now rewrite Ef.
  - destruct (dget g d) as [c'|]; [|reflexivity]. now destruct (eqb c' c).
Qed.
Lemma RecK_del cf d k tr e f : RecK cf d k tr -> voids k f e = true -> (forall g, g <> f -> voids k g e = false) -> (forall x c, e <> Did k x (Ran c true)) ->
  RecK cf (del_same f d) k (e :: tr).
Proof.
  intros [H1 H2 H3 H4 H5] Hv Hv' Hn.
  assert (Hsub : forall g c, dget g (del_same f d) = Some c -> g <> f /\ dget g d = Some c /\ forall x, dget x d = Some c -> x <> f /\ dget x (del_same f d) = Some c).
  { intros g c Hg. rewrite dget_del_same in Hg by exact H1. destruct (dget f d) as [cf'|] eqn:Ef.
    - destruct (dget g d) as [c'|] eqn:Eg; [|discriminate]. destruct (eqb_spec g f) as [|N]; [discriminate|]. cbn in Hg.
      destruct (eqb_spec c' cf') as [|N2]; [discriminate|]. injection Hg as ->. split; [exact N|]. split; [reflexivity|].
      intros x Hx. assert (Nx : x <> f) by (intros ->; congruence). split; [exact Nx|]. rewrite dget_del_same, Ef, Hx by exact H1.
      apply eqb_neq in Nx, N2. now rewrite Nx, N2.
    - split; [congruence|]. split; [exact Hg|]. intros x Hx. split; [congruence|]. rewrite dget_del_same, Ef by exact H1. exact Hx. }
  split.
  - unfold del_same. destruct (dget f d); [|exact H1]. now apply dwf_filter, dwf_ddel.
  - intros g c Hg. destruct (Hsub g c Hg) as (_ & Hg' & _). auto.
  - intros g c Hg. destruct (Hsub g c Hg) as (_ & Hg' & Hx). destruct (H3 g c Hg') as (x & Hval & Hd). exists x.
    destruct (Hx x Hd) as [Nx Hx']. split; [apply valid_cons; auto|exact Hx'].
  - intros g c Hg. destruct (Hsub g c Hg) as (Ng & Hg' & _). destruct (H4 g c Hg') as [H|H]; [left|right]; apply valid_cons; auto.
  - intros x c r1 r2 E Hr. apply tail_split in E as [(-> & -> & ->) | (r1' & -> & ->)]; [now destruct (Hn x c)|].
    cbn in Hr. rewrite (voids_voids_some k f e Hv) in Hr. discriminate Hr.
Qed.
(** the command ran for [f], or was shared with another family *)
Lemma RecK_set cf d k tr f cmd h : RecK cf d k tr -> op_kind k = true -> c_cmd cf k f = Some cmd ->
  h = Ran cmd true \/ h = Shared cmd /\ (exists g, dget g d = Some cmd) ->
  RecK cf (dset f cmd d) k (Did k f h :: tr).
Proof.
  intros [H1 H2 H3 H4 H5] Hk Hcmd Hh.
  assert (Hv : forall g, voids k g (Did k f h) = false).
  { intros g. cbn. destruct (eqb f g); [|reflexivity]. destruct Hh as [-> | [-> _]]; destruct k; auto; discriminate Hk. }
  split.
  - now apply dwf_dset.
  - intros g c Hg. rewrite dget_dset in Hg. destruct (eqb_spec g f) as [->|N]; [congruence|auto].
  - assert (Hold : forall g c, dget g d = Some c -> exists x, valid_since k x (Did k x (Ran c true)) (Did k f h :: tr) /\ dget x (dset f cmd d) = Some c).
    { intros g c Hg. destruct (H3 g c Hg) as (x & Hval & Hd). exists x. split; [now apply valid_cons|]. rewrite dget_dset.
      destruct (eqb_spec x f) as [->|N]; [|exact Hd]. apply H2 in Hd. congruence. }
    intros g c Hg. rewrite dget_dset in Hg. destruct (eqb_spec g f) as [->|N]; [|eauto]. injection Hg as <-.
    destruct Hh as [-> | [-> (g' & Hg')]]; [|eauto]. exists f. split; [apply valid_head|apply dget_dset_same].
  - intros g c Hg. rewrite dget_dset in Hg. destruct (eqb_spec g f) as [->|N].
    + injection Hg as <-. destruct Hh as [-> | [-> _]]; [left|right]; apply valid_head.
    + destruct (H4 g c Hg) as [H|H]; [left|right]; now apply valid_cons.
  - intros x c r1 r2 E Hr. rewrite dget_dset. apply tail_split in E as [(-> & E & ->) | (r1' & -> & ->)].
    + injection E as -> ->. rewrite eqb_refl. destruct Hh as [E | [E _]]; congruence.
    + cbn [existsb] in Hr. apply orb_false_iff in Hr as [_ Hr]. pose proof (H5 x c r1' r2 eq_refl Hr) as Hd.
      destruct (eqb_spec x f) as [->|N]; [|exact Hd]. apply H2 in Hd. congruence.
Qed.

Section Inv.
Context (out : nat -> bool) (od : bool) (fams : list fam) (c0 : cfg).

Definition Core (s : st) : Prop := Rec (s_cfg s) (s_exec s) (s_trace s) /\ lawful od fams c0 (s_trace s) /\ s_cfg s = cfg_at c0 (s_trace s).
Definition Inv (s : st) : Prop := Core s /\ Flags (s_started s) (s_trace s).

(** the parts of a state that operations keep *)
Lemma op_del_same k f s : s_cfg (op_del k f s) = s_cfg s /\ s_started (op_del k f s) = s_started s /\ s_trace (op_del k f s) = s_trace s /\ s_n (op_del k f s) = s_n s /\ s_epoch (op_del k f s) = s_epoch s.
Proof. unfold op_del. destruct (dget f (s_exec s k)); cbn; auto 10. Qed.
Lemma op_del_exec k f s k' : s_exec (op_del k f s) k' = if kind_eqb k' k then del_same f (s_exec s k) else s_exec s k'.
Proof.
  unfold op_del, del_same. destruct (dget f (s_exec s k)); cbn; [reflexivity|]. destruct (kind_eqb k' k) eqn:E; [|reflexivity]. now apply kind_eqb_true in E as ->.
Qed.

(** an event that is nothing to the record *)
Definition plain (e : event) : Prop := match e with Call (ASet _) => False | Call _ => True | Did k _ h => op_kind k = false \/ h = NoCmd | GaveUp _ => False end.
Lemma plain_skip e k : plain e -> op_kind k = true -> voids_some k e = false /\ forall x c, e <> Did k x (Ran c true).
Proof.
  intros He Hk. destruct e as [[]|k' f h|f]; cbn in He; try contradiction; try (split; [reflexivity|discriminate]).
  split.
  - cbn. rewrite eqb_refl. destruct He as [He|He]; [|subst h]; destruct k, k'; try discriminate; reflexivity.
  - intros x c E. injection E as -> -> ->. destruct He as [He|He]; congruence.
Qed.
Lemma Rec_plain cf ex tr e : Rec cf ex tr -> plain e -> Rec cf ex (e :: tr).
Proof. intros H He k Hk. destruct (plain_skip e k He Hk). apply RecK_skip; auto. Qed.
Lemma cfg_at_did k f h tr : cfg_at c0 (Did k f h :: tr) = cfg_at c0 tr. Proof. reflexivity. Qed.
Lemma Core_plain s s' e : Core s -> plain e -> s_trace s' = e :: s_trace s -> s_exec s' = s_exec s -> s_cfg s' = s_cfg s ->
  allowed od fams (s_cfg s) e (s_trace s) -> Core s'.
Proof.
  intros (H1 & H2 & H3) He Et Ee Ec Hal. unfold Core. rewrite Et, Ee, Ec. split; [now apply Rec_plain|]. split; [split; [rewrite <- H3; exact Hal|exact H2]|].
  rewrite H3. destruct e as [[]| |]; cbn in He; try contradiction; reflexivity.
Qed.

Lemma execute_spec k f cmd s s' b : execute out k f cmd s = (s', b) ->
  exists h, s_trace s' = Did k f h :: s_trace s /\ b = good h /\ s_started s' = s_started s /\ s_exec s' = s_exec s
    /\ s_cfg s' = s_cfg s /\ s_epoch s' = s_epoch s /\ (h = Nothing /\ cmd = ""%string \/ h = Ran cmd b /\ cmd <> ""%string).
Proof.
  unfold execute. destruct (eqb_spec cmd ""%string) as [->|N]; intros E; injection E as <- <-; cbn.
  - exists Nothing. auto 10.
  - exists (Ran cmd (out (s_n s))). auto 10.
Qed.

(** what one round of an operation does, for an [after] that changes the flags by [ga] *)
Definition opposite (k : kind) : option kind := match k with KStart => Some KStop | KStop => Some KStart | _ => None end.
Record After (k : kind) (after : fam -> bool -> st -> st) (ga : fam -> bool -> dict fam Z -> dict fam Z) : Prop := mkAfter {
  af_started : forall f b s, s_started (after f b s) = ga f b (s_started s);
  af_trace : forall f b s, s_trace (after f b s) = s_trace s;
  af_cfg : forall f b s, s_cfg (after f b s) = s_cfg s;
  af_epoch : forall f b s, s_epoch (after f b s) = s_epoch s;
  af_exec : forall f b s k', s_exec (after f b s) k' = match opposite k with Some ko => if b && kind_eqb k' ko then del_same f (s_exec s ko) else s_exec s k' | None => s_exec s k' end }.

Lemma exec_one_spec k after ga f s s' b : After k after ga -> op_kind k = true -> Rec (s_cfg s) (s_exec s) (s_trace s) ->
  exec_one out k after f s = (s', b) ->
  exists h, s_trace s' = Did k f h :: s_trace s /\ b = good h /\ s_cfg s' = s_cfg s /\ s_epoch s' = s_epoch s
    /\ Rec (s_cfg s) (s_exec s') (Did k f h :: s_trace s)
    /\ configured (s_cfg s) k f h /\ sharing k f h (s_trace s)
    /\ s_started s' = (if match h with NoCmd => true | _ => false end then s_started s else ga f b (s_started s)).
Proof.
  intros HA Hop HR. unfold exec_one. destruct (c_cmd (s_cfg s) k f) as [cmd|] eqn:Ecmd.
  2:{ intros E. injection E as <- <-. exists NoCmd. cbn [s_trace log s_cfg s_exec s_epoch s_started]. repeat (split; [solve [auto]|]).
      split; [apply Rec_plain; [exact HR|now right]|]. split; [exact Ecmd|]. split; [exact I|reflexivity]. }
  set (p := if eqb cmd ""%string then _ else _).
  assert (Hp : exists h s1 b1, p = (s1, b1) /\ s_trace s1 = Did k f h :: s_trace s /\ b1 = good h /\ s_cfg s1 = s_cfg s /\ s_epoch s1 = s_epoch s /\ s_exec s1 = s_exec s /\ s_started s1 = s_started s
            /\ sharing k f h (s_trace s)
            /\ (h = Nothing /\ cmd = ""%string \/ cmd <> ""%string /\ (h = Ran cmd b1 \/ h = Shared cmd /\ exists g, dget g (s_exec s k) = Some cmd))).
  { destruct (HR k Hop) as [K1 K2 K3 K4 K5]. unfold p. destruct (eqb_spec cmd ""%string) as [Ec0|N].
    - exists Nothing. eexists _, _. repeat (split; [reflexivity|]). auto.
    - destruct (inb cmd (op_others k f s)) eqn:Ei.
      + exists (Shared cmd). eexists _, _. repeat (split; [reflexivity|]).
        apply inb_In in Ei. unfold op_others in Ei. apply in_map_iff in Ei as ([g c] & Ec & Hin). cbn in Ec. subst c.
        apply filter_In in Hin as [Hin Hne]. cbn in Hne. apply negb_true_iff, eqb_neq in Hne. apply In_dget in Hin; [|exact K1].
        split; [|right; split; [exact N|right; eauto]]. split; [exists g; auto|]. destruct (K3 g cmd Hin) as (x & Hx & _). eauto.
      + destruct (execute out k f cmd s) as [s1 b1] eqn:Ex. apply execute_spec in Ex as (h & E1 & E2 & E3 & E4 & E5 & E5' & E6).
        exists h, s1, b1. repeat (split; [solve [auto]|]).
        destruct E6 as [[-> ->] | [-> _]]; [contradiction|]. split; [|right; auto].
        intros x r1 r2 Nx E. destruct (existsb (voids_some k) r1) eqn:Ev; [reflexivity|exfalso].
        pose proof (K5 x cmd r1 r2 E Ev) as Hd. apply inb_false in Ei. apply Ei. unfold op_others. apply in_map_iff. exists (x, cmd). split; [reflexivity|].
        apply filter_In. split; [now apply dget_In|]. cbn. apply negb_true_iff. now apply eqb_neq. }
  destruct Hp as (h & s1 & b1 & Ep & E1 & E2 & E3 & E4' & E4 & E5 & E6 & E7). rewrite Ep. clear p Ep.
  intros E. injection E as <- <-. exists h.
  assert (Ea : s_trace (after f b1 s1) = Did k f h :: s_trace s) by (rewrite (af_trace _ _ _ HA); exact E1).
  assert (Es : s_started (after f b1 s1) = ga f b1 (s_started s)) by (rewrite (af_started _ _ _ HA), E5; reflexivity).
  assert (Eg : s_cfg (after f b1 s1) = s_cfg s) by (rewrite (af_cfg _ _ _ HA); exact E3).
  assert (Ep : s_epoch (after f b1 s1) = s_epoch s) by (rewrite (af_epoch _ _ _ HA); exact E4').
  assert (Hno : h <> NoCmd) by (destruct E7 as [[-> _] | [_ [-> | [-> _]]]]; discriminate).
  assert (En : (if match h with NoCmd => true | _ => false end then s_started s else ga f b1 (s_started s)) = ga f b1 (s_started s)) by (destruct h; auto; contradiction).
  assert (Hconf : configured (s_cfg s) k f h) by (destruct E7 as [[-> ->] | [N [-> | [-> _]]]]; cbn; auto; split; [auto|]; split; [auto|]; destruct k; try discriminate Hop; auto 10).
  (* the records after the opposite ones were deleted *)
  assert (Hother : forall k', op_kind k' = true -> k' <> k -> RecK (s_cfg s) (s_exec (after f b1 s1) k') k' (Did k f h :: s_trace s)).
  { intros k' Hk' Nk. rewrite (af_exec _ _ _ HA), E4.
    destruct (match opposite k with Some ko => b1 && kind_eqb k' ko | None => false end) eqn:Eo.
    - destruct (opposite k) as [ko|] eqn:Eko; [|discriminate Eo]. rewrite Eo. apply andb_true_iff in Eo as [Hb1 Hko]. apply kind_eqb_true in Hko as <-.
      subst b1. apply RecK_del; [apply HR; exact Hk'| | |].
      + cbn. rewrite eqb_refl, Hb1. destruct k; cbn in Eko; try discriminate Eko; injection Eko as <-; reflexivity.
      + intros g Ng. cbn. assert (Ne : eqb f g = false) by (apply eqb_neq; congruence). now rewrite Ne.
      + intros x c E. injection E as E _ _. congruence.
    - assert (Ed : s_exec s k' = match opposite k with Some ko => if b1 && kind_eqb k' ko then del_same f (s_exec s ko) else s_exec s k' | None => s_exec s k' end).
      { destruct (opposite k); [|reflexivity]. now rewrite Eo. }
      rewrite <- Ed. apply RecK_skip; [apply HR; exact Hk'| |].
      + cbn. rewrite eqb_refl. subst b1. destruct k, k'; try discriminate Hk'; try discriminate Hop; try congruence; cbn in Eo |- *; try reflexivity; now rewrite andb_true_r in Eo.
      + intros x c E. injection E as E _ _. congruence. }
  assert (Hself : s_exec (after f b1 s1) k = s_exec s k).
  { rewrite (af_exec _ _ _ HA), E4. destruct k; cbn; try reflexivity; now rewrite andb_false_r. }
  rewrite En. destruct (b1 && negb (eqb cmd ""%string)) eqn:Eb.
  - apply andb_true_iff in Eb as [Hb1 En2]. apply negb_true_iff, eqb_neq in En2. cbn [s_trace op_set put_exec s_cfg s_epoch s_exec s_started]. rewrite Ea, Es, Eg, Ep.
    repeat (split; [solve [auto]|]). split; [|auto].
    intros k' Hk'. destruct (kind_eqb k' k) eqn:Ek; [|apply Hother; [exact Hk'|intros ->; rewrite kind_eqb_refl in Ek; discriminate]].
    apply kind_eqb_true in Ek as ->. rewrite Hself. apply RecK_set; auto.
    destruct E7 as [[_ ->] | [_ [-> | H]]]; [contradiction|left; congruence|now right].
  - destruct (op_del_same k f (after f b1 s1)) as (F1 & F2 & F3 & _ & F5). rewrite F1, F2, F3, F5, Ea, Es, Eg, Ep.
    repeat (split; [solve [auto]|]). split; [|auto].
    intros k' Hk'. rewrite op_del_exec. destruct (kind_eqb k' k) eqn:Ek; [|apply Hother; [exact Hk'|intros ->; rewrite kind_eqb_refl in Ek; discriminate]].
    apply kind_eqb_true in Ek as ->. rewrite Hself.
    assert (Hh : h = Nothing \/ h = Ran cmd false).
    { destruct E7 as [[-> _] | [N [-> | [-> _]]]]; auto.
      - right. apply eqb_neq in N. rewrite N in Eb. cbn in Eb. rewrite andb_true_r in Eb. now rewrite Eb.
      - subst b1. apply eqb_neq in N. rewrite N in Eb. discriminate Eb. }
    apply RecK_del; [apply HR; exact Hop| | |].
    + cbn. rewrite eqb_refl. destruct Hh as [-> | ->]; destruct k; auto; discriminate Hop.
    + intros g Ng. cbn. assert (Ne : eqb f g = false) by (apply eqb_neq; congruence). now rewrite Ne.
    + intros x c E. injection E as _ E. destruct Hh as [-> | ->]; discriminate E.
Qed.

(** a loop whose invariant [I] says what is true before the rest [fs] *)
Lemma exec_all_ind k after ga (HA : After k after ga) (Hop : op_kind k = true) (I : list fam -> dict fam Z -> list event -> Prop) fs : forall s s' b,
  Core s -> I fs (s_started s) (s_trace s) ->
  (forall f r h d tr, I (f :: r) d tr -> configured (s_cfg s) k f h -> sharing k f h tr ->
     allowed od fams (s_cfg s) (Did k f h) tr /\ I r (if match h with NoCmd => true | _ => false end then d else ga f (good h) d) (Did k f h :: tr)) ->
  exec_all out k after fs s = (s', b) ->
  Core s' /\ I [] (s_started s') (s_trace s') /\ s_cfg s' = s_cfg s /\ s_epoch s' = s_epoch s
  /\ (forall f, In f fs -> exists h, In (Did k f h) (since_call (s_trace s')))
  /\ (exists new, s_trace s' = new ++ s_trace s /\ (forall e, In e new -> exists f h, e = Did k f h /\ In f fs) /\ (b = true <-> forall f h, In (Did k f h) new -> good h = true)).
Proof.
  induction fs as [|f r IH]; intros s s' b HC HI Hstep E.
  - injection E as <- <-. split; [auto|]. split; [exact HI|]. split; [reflexivity|]. split; [reflexivity|]. split; [intros f []|].
    exists []. split; [reflexivity|]. split; [intros e []|]. split; [intros _ f h []|auto].
  - cbn [exec_all] in E. destruct (exec_one out k after f s) as [s1 a] eqn:E1.
    destruct (exec_all out k after r s1) as [s2 b2] eqn:E2. injection E as <- <-. destruct HC as (HR & HL & HG).
    apply (exec_one_spec k after ga) in E1 as (h & F1 & F2 & F3 & F3' & F4 & F5 & F5' & F6); auto.
    destruct (Hstep f r h _ _ HI F5 F5') as [Hal HI1].
    assert (HC1 : Core s1).
    { unfold Core. rewrite F1, F3. split; [exact F4|]. split; [split; [rewrite <- HG; exact Hal|exact HL]|exact HG]. }
    specialize (IH s1 s2 b2 HC1). rewrite F1 in IH. rewrite F2 in F6. rewrite F6 in IH. rewrite F3 in IH.
    specialize (IH HI1 Hstep E2) as (G1 & G2 & G3 & G3' & G4 & new & G5 & G6 & G7).
    split; [exact G1|]. split; [exact G2|]. split; [congruence|]. split; [congruence|]. split.
    + intros g [<-|Hg]; [|auto]. exists h. rewrite G5. clear -G6. induction new as [|e n IHn]; cbn; [now left|].
      destruct (G6 e (or_introl eq_refl)) as (x & y & -> & _). right. apply IHn. intros e0 H0. apply G6. now right.
    + exists (new ++ [Did k f h]). split; [rewrite G5, <- app_assoc; reflexivity|]. split.
      * intros e He. apply in_app_iff in He as [He|[<-|[]]]; [|exists f, h; split; [reflexivity|now left]].
        destruct (G6 e He) as (x & y & -> & Hx). exists x, y. split; [reflexivity|now right].
      * rewrite andb_true_iff, G7. subst a. split.
        -- intros [Ha Hb] g y Hg. apply in_app_iff in Hg as [Hg|[Hg|[]]]; [eauto|]. now injection Hg as <- <-.
        -- intros H. split; [apply (H f); apply in_app_iff; right; now left|]. intros g y Hg. apply (H g). apply in_app_iff. now left.
Qed.
End Inv.
