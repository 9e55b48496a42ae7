(** Proofs about the life cycle of a command action: each call, and any history of calls. *)
From Verif Require Import Base CmdAct_Model CmdAct_Spec CmdAct_Proofs CmdAct_Proofs2 CmdAct_Proofs3.

Definition no_call (new : list event) : Prop := forall e, In e new -> forall a, e <> Call a.
Lemma since_call_app new a tr : no_call new -> since_call (new ++ Call a :: tr) = new.
Proof.
  induction new as [|e n IH]; intros H; [reflexivity|]. pose proof (H e (or_introl eq_refl)) as He.
  destruct e; [now destruct (He a0)| |]; cbn; f_equal; apply IH; intros e' H'; apply H; now right.
Qed.
Lemma no_call_did k (new : list event) (P : fam -> Prop) : (forall e, In e new -> exists f h, e = Did k f h /\ P f) -> no_call new.
Proof. intros H e He a ->. destruct (H _ He) as (f & h & E & _). discriminate E. Qed.
Lemma no_call_ticket k f new : (forall e, In e new -> (exists h, e = Did k f h) \/ repair_event f e) -> no_call new.
Proof. intros H e He a ->. destruct (H _ He) as [(h & E) | (k' & h & E & _)]; discriminate E. Qed.
Lemma up_repair f g new tr : g <> f -> (forall e, In e new -> repair_event f e) -> up g (new ++ tr) = up g tr.
Proof.
  intros N. induction new as [|e n IH]; intros H; [reflexivity|]. destruct (H e (or_introl eq_refl)) as (k & h & -> & _).
  change ((Did k f h :: n) ++ tr) with (Did k f h :: (n ++ tr)). rewrite up_other by exact N. apply IH. intros e' H'. apply H. now right.
Qed.

Lemma repairs_loop k (new : list event) a tr : k <> KCheck -> (forall e, In e new -> exists f h, e = Did k f h) -> repairs (new ++ Call a :: tr) = repairs tr.
Proof.
  intros Hk. induction new as [|e n IH]; intros H; [reflexivity|]. destruct (H e (or_introl eq_refl)) as (f & h & ->).
  change ((Did k f h :: n) ++ Call a :: tr) with (Did k f h :: (n ++ Call a :: tr)). rewrite repairs_other.
  - apply IH. intros e' H'. apply H. now right.
  - intros g c r E. destruct n as [|e' n]; [discriminate E|]. injection E as -> _. destruct (H (Did KCheck g (Ran c false))) as (x & y & E); [right; now left|]. congruence.
Qed.

Section Steps.
Context (out : nat -> bool) (od : bool) (fams : list fam) (c0 : cfg).
Local Notation Inv := (Inv od fams c0).
Local Notation step := (step out od fams).
Local Notation run := (run out od fams).

(** the calls that work through several families; [Q] tells which *)
Definition Worked (k : kind) (a : api) (Q : fam -> Prop) (s s' : st) (r : result) : Prop :=
  Inv s' /\ s_cfg s' = s_cfg s /\ balanced s s' /\
  exists new, s_trace s' = new ++ Call a :: s_trace s
    /\ (forall e, In e new -> exists f h, e = Did k f h /\ Q f)
    /\ (forall f, Q f -> exists h, In (Did k f h) new)
    /\ r = (if forallb (fun e => match e with Did _ _ h => good h | _ => true end) new then Done else Raised).

Lemma Worked_nil k a Q s : Inv (log (Call a) s) -> (forall f, ~ Q f) -> Worked k a Q s (log (Call a) s) Done.
Proof.
  intros HI HQ. split; [exact HI|]. split; [reflexivity|]. split; [unfold balanced; reflexivity|]. exists []. repeat split; auto; [intros e []|]. intros f Hf. now destruct (HQ f).
Qed.
Lemma loop_worked k after ga a (Q : fam -> Prop) (I : list fam -> dict fam Z -> list event -> Prop) fs s0 s s' r :
  After k after ga -> op_kind k = true -> Core od fams c0 s -> s_trace s = Call a :: s_trace s0 -> s_cfg s = s_cfg s0 -> s_epoch s = s_epoch s0 -> I fs (s_started s) (s_trace s) ->
  (forall f rr h d tr, I (f :: rr) d tr -> configured (s_cfg s) k f h -> sharing k f h tr ->
     allowed od fams (s_cfg s) (Did k f h) tr /\ I rr (if match h with NoCmd => true | _ => false end then d else ga f (good h) d) (Did k f h :: tr)) ->
  (forall d tr, I [] d tr -> Flags d tr) -> (forall f, In f fs <-> Q f) -> fs <> [] ->
  exec_operation out k fs after s = (s', r) -> Worked k a Q s0 s' r.
Proof.
  intros HA Hop HC HT Hcfg Hep HI Hstep Hend HQ Hne. unfold exec_operation. destruct fs as [|f0 fr]; [contradiction|].
  destruct (exec_all out k after (f0 :: fr) s) as [s1 b] eqn:E1. intros E. injection E as <- <-.
  apply (exec_all_ind out od fams c0 k after ga HA Hop I) in E1; auto.
  destruct E1 as (G1 & G2 & G3 & G3' & G4 & new & G5 & G6 & G7). split; [|split; [congruence|split]].
  - split; [exact G1|]. now apply Hend.
  - unfold balanced. rewrite G5, HT, (repairs_loop k); [congruence|intros ->; discriminate Hop|].
    intros e He. destruct (G6 e He) as (f & h & -> & _). eauto.
  - exists new. rewrite HT in G5. split; [exact G5|].
    assert (Hnc : no_call new) by (apply (no_call_did k new (fun f => In f (f0 :: fr))); exact G6).
    split; [|split].
    + intros e He. destruct (G6 e He) as (f & h & -> & Hf). exists f, h. split; [reflexivity|now apply HQ].
    + intros f Hf. apply HQ, G4 in Hf as (h & Hh). rewrite G5, since_call_app in Hh by exact Hnc. eauto.
    + replace (forallb (fun e => match e with Did _ _ h => good h | _ => true end) new) with b; [reflexivity|].
      apply eq_true_iff_eq. rewrite G7, forallb_forall. split.
      * intros H e He. destruct (G6 e He) as (f & h & -> & _). eauto.
      * intros H f h Hin. now apply (H _ Hin).
Qed.

Lemma nz_up d tr f : Flags d tr -> In f (fams_of d (fun v => negb (v =? 0))) <-> up f tr = true.
Proof. intros HF. rewrite fams_of_In by (apply HF || reflexivity). rewrite (Flags_nz _ _ f HF), negb_involutive. tauto. Qed.
Lemma three_filled d tr f : Flags d tr -> In f (fams_of d (fun v => Z.land v 3 =? 3)) <-> filled f tr = true.
Proof.
  intros HF. rewrite fams_of_In by (apply HF || reflexivity). destruct HF as [_ HF]. rewrite HF. pose proof (filled_up f tr) as Hu.
  unfold val. destruct (up f tr), (filled f tr); cbn; try tauto; split; auto; discriminate.
Qed.
Lemma keep_id (A : Type) (h : how) (d : A) : (if match h with NoCmd => true | _ => false end then d else d) = d.
Proof. now destruct h. Qed.

Lemma stop_all s s' r : Inv s -> step AStop s = (s', r) ->
  Worked KStop AStop (fun f => up f (s_trace s) = true) s s' r.
Proof.
  intros [HC HF]. unfold CmdAct_Model.step, do_stop. set (s1 := log (Call AStop) s).
  assert (HC1 : Core od fams c0 s1) by (apply (Core_plain od fams c0 s s1 (Call AStop)); auto; exact I).
  change (s_started s1) with (s_started s). fold (fams_of (s_started s) (fun v => negb (v =? 0))).
  pose proof (fun f => nz_up _ _ f HF) as Hin. destruct (fams_of (s_started s) (fun v => negb (v =? 0))) as [|f0 fr] eqn:Ef.
  - intros E. injection E as <- <-. apply Worked_nil.
    + split; [exact HC1|]. split; [apply HF|]. intros f. cbn.
      pose proof (Flags_nz _ _ f HF) as Hz. destruct (up f (s_trace s)) eqn:Eu; [apply Hin in Eu as []|]. cbn in Hz. now apply Z.eqb_eq in Hz.
    + intros f Hu. apply Hin in Hu as [].
  - intros E. eapply (loop_worked KStop after_stop ga_id AStop _
      (fun fs d tr => in_call tr AStop (s_trace s) /\ (d = [] /\ forall f, up f tr = false) /\ forall f, In f fs -> up f (s_trace s) = true)) in E.
    + exact E.
    + exact After_stop.
    + reflexivity.
    + exact HC1.
    + reflexivity.
    + reflexivity.
    + reflexivity.
    + split; [reflexivity|]. split; [|intros f Hf; now apply Hin]. split; reflexivity.
    + intros f rr h d tr (Hc & [Hd Hn] & Hu) Hconf Hsh. split.
      * split; [exact Hconf|]. split; [|exact Hsh]. left. exists AStop, (s_trace s). split; [exact Hc|]. split; [reflexivity|]. apply Hu. now left.
      * split; [exact Hc|]. split; [|intros g Hg; apply Hu; now right]. unfold ga_id. rewrite keep_id. split; [exact Hd|].
        intros g. cbn. rewrite Hn. now destruct (eqb f g).
    + intros d tr (_ & [-> Hn] & _). split; [constructor|]. intros f. now rewrite Hn.
    + exact Hin.
    + discriminate.
Qed.

Lemma flush_all s s' r : Inv s -> step AFlush s = (s', r) ->
  Worked KFlush AFlush (fun f => filled f (s_trace s) = true) s s' r.
Proof.
  intros HI. assert (HI1 : Inv (log (Call AFlush) s)) by (apply Inv_call; [exact HI|discriminate|discriminate]).
  unfold CmdAct_Model.step, do_flush. set (s1 := log (Call AFlush) s) in *.
  fold (fams_of (s_started s1) (fun v => Z.land v 3 =? 3)).
  pose proof (fun f => three_filled _ _ f (proj2 HI1)) as Hin. pose proof (fams_of_NoDup (s_started s1) (fun v => Z.land v 3 =? 3) (proj1 (proj2 HI1))) as Hnd.
  change (forall f, In f (fams_of (s_started s1) (fun v => Z.land v 3 =? 3)) <-> filled f (s_trace s) = true) in Hin.
  destruct (fams_of (s_started s1) (fun v => Z.land v 3 =? 3)) as [|f0 fr] eqn:Ef.
  - intros E. injection E as <- <-. apply Worked_nil; auto. intros f Hu. apply Hin in Hu as [].
  - intros E. eapply (loop_worked KFlush after_flush ga_flush AFlush _
      (fun fs d tr => in_call tr AFlush (s_trace s) /\ Flags d tr /\ NoDup fs /\ forall f, In f fs -> filled f tr = true)) in E.
    + exact E.
    + exact After_flush.
    + reflexivity.
    + apply HI1.
    + reflexivity.
    + reflexivity.
    + reflexivity.
    + split; [reflexivity|]. split; [apply HI1|]. split; [exact Hnd|]. intros f Hf. now apply Hin.
    + intros f rr h d tr (Hc & HFl & Hnd' & Hu) Hconf Hsh. inversion Hnd' as [|? ? Hni Hnd'']; subst.
      pose proof (Hu f (or_introl eq_refl)) as Hff. pose proof (filled_up _ _ Hff) as Huf. split.
      * split; [exact Hconf|]. split; [exists AFlush, (s_trace s); auto|]. auto.
      * split; [exact Hc|]. split; [|split; [exact Hnd''|intros g Hg; rewrite filled_other; [apply Hu; now right|intros ->; contradiction]]].
        unfold ga_flush. destruct (good h) eqn:Eg.
        -- cbn [andb]. rewrite (Flags_nz _ _ f HFl), negb_involutive, Huf.
           replace (if match h with NoCmd => true | _ => false end then d else dset f (Z.land (sv d f) (Z.lnot 2)) d) with (dset f (Z.land (sv d f) (Z.lnot 2)) d) by (destruct h; auto; discriminate Eg).
           apply Flags_set; [exact HFl|]. rewrite (proj2 HFl f), Hff, Huf. cbn. rewrite eqb_refl, Eg, Huf. reflexivity.
        -- cbn [andb]. rewrite keep_id. apply Flags_neutral; [|exact HFl]. apply neutral_bad; auto; discriminate.
    + intros d tr (_ & HFl & _). exact HFl.
    + exact Hin.
    + discriminate.
Qed.

Lemma reload_all s s' r : Inv s -> step AReload s = (s', r) ->
  Worked KReload AReload (fun f => up f (s_trace s) = true) s s' r.
Proof.
  intros HI. assert (HI1 : Inv (log (Call AReload) s)) by (apply Inv_call; [exact HI|discriminate|discriminate]).
  unfold CmdAct_Model.step. set (s1 := log (Call AReload) s) in *.
  pose proof (fun f => nz_up _ _ f (proj2 HI1)) as Hin.
  change (forall f, In f (fams_of (s_started s1) (fun v => negb (v =? 0))) <-> up f (s_trace s) = true) in Hin.
  assert (Es : exec_operation out KReload [] (fun _ _ s => s) s1 =
    match fams_of (s_started s1) (fun v => negb (v =? 0)) with [] => (s1, Done) | fs => exec_operation out KReload fs (fun _ _ s => s) s1 end).
  { unfold exec_operation. fold (fams_of (s_started s1) (fun v => negb (v =? 0))). now destruct (fams_of (s_started s1) (fun v => negb (v =? 0))). }
  rewrite Es. clear Es. destruct (fams_of (s_started s1) (fun v => negb (v =? 0))) as [|f0 fr] eqn:Ef.
  - intros E. injection E as <- <-. apply Worked_nil; auto. intros f Hu. apply Hin in Hu as [].
  - intros E. eapply (loop_worked KReload (fun _ _ s => s) ga_id AReload _
      (fun fs d tr => in_call tr AReload (s_trace s) /\ Flags d tr /\ forall f, In f fs -> up f tr = true)) in E.
    + exact E.
    + exact After_id.
    + reflexivity.
    + apply HI1.
    + reflexivity.
    + reflexivity.
    + reflexivity.
    + split; [reflexivity|]. split; [apply HI1|]. intros f Hf. now apply Hin.
    + intros f rr h d tr (Hc & HFl & Hu) Hconf Hsh.
      assert (Hn : neutral (Did KReload f h)) by (apply neutral_did; auto). split.
      * split; [exact Hconf|]. split; [exists AReload, (s_trace s); auto|]. split; [|exact Hsh]. apply Hu. now left.
      * split; [exact Hc|]. unfold ga_id. rewrite keep_id. split; [now apply Flags_neutral|]. intros g Hg. destruct (Hn g tr) as [-> _]. apply Hu. now right.
    + intros d tr (_ & HFl & _). exact HFl.
    + exact Hin.
    + discriminate.
Qed.

Lemma start_all s s' r : Inv s -> fams <> [] -> step AStart s = (s', r) ->
  Worked KStart AStart (fun f => od = false /\ In f fams) s s' r.
Proof.
  intros HI Hne. assert (HI1 : Inv (log (Call AStart) s)) by (apply Inv_call; [exact HI|discriminate|discriminate]).
  unfold CmdAct_Model.step, do_start. cbn [negb andb]. rewrite orb_false_r. destruct (bool_dec od true) as [Eo|Eo]; [|apply not_true_is_false in Eo].
  - rewrite Eo at 1. intros E. injection E as <- <-. apply Worked_nil; auto. intros f [Hf _]. congruence.
  - rewrite Eo at 1. intros E. eapply (loop_worked KStart after_start ga_start AStart _
      (fun fs d tr => in_call tr AStart (s_trace s) /\ Flags d tr /\ forall f, In f fs -> In f fams)) in E.
    + exact E.
    + exact After_start.
    + reflexivity.
    + apply HI1.
    + reflexivity.
    + reflexivity.
    + reflexivity.
    + split; [reflexivity|]. split; [apply HI1|]. auto.
    + intros f rr h d tr (Hc & HFl & Hu) Hconf Hsh. split.
      * split; [exact Hconf|]. split; [|exact Hsh]. left. split; [exact Eo|]. exists AStart, (s_trace s). split; [exact Hc|]. split; [reflexivity|]. apply Hu. now left.
      * split; [exact Hc|]. split; [|intros g Hg; apply Hu; now right]. unfold ga_start. destruct (good h) eqn:Eg.
        -- replace (if match h with NoCmd => true | _ => false end then d else dset f 1 d) with (dset f 1 d) by (destruct h; auto; discriminate Eg).
           apply Flags_set; [exact HFl|]. destruct (up_did_start f h tr Eg) as [-> ->]. reflexivity.
        -- rewrite keep_id. apply Flags_neutral; [|exact HFl]. apply neutral_bad; auto; discriminate.
    + intros d tr (_ & HFl & _). exact HFl.
    + intros f. tauto.
    + exact Hne.
Qed.

(** the calls about one ticket *)
Definition Tried (k : kind) (a : api) (f : fam) (s s' : st) (r : result) : Prop :=
  Inv s' /\ s_cfg s' = s_cfg s /\ balanced s s' /\ (k <> KUnban \/ c_repair_on_unban (s_cfg s) = true -> forall c h tr, s_trace s' <> Did KCheck f (Ran c false) :: Did k f h :: tr) /\
  exists new, s_trace s' = new ++ Call a :: s_trace s
    /\ (forall e, In e new -> (exists h, e = Did k f h) \/ repair_event f e)
    /\ (tries k f new = 1 \/ tries k f new = 2)%nat
    /\ (r = Done <-> exists h old, new = Did k f h :: old /\ good h = true)
    /\ (r <> Done -> r = Raised /\ forall h, In (Did k f h) new -> good h = false)
    /\ (exists h old, new = old ++ [Did k f h]).
Lemma unban_prolong k a f s s' r : Inv s -> (k = KUnban /\ a = AUnban f /\ filled f (s_trace s) = true \/ k = KProlong /\ a = AProlong f) ->
  outcome (process_cmd out od fams k f (log (Call a) s)) = (s', r) -> Tried k a f s s' r.
Proof.
  intros HI Hk. assert (HI1 : Inv (log (Call a) s)) by (apply Inv_call; [exact HI|..]; destruct Hk as [(_ & -> & _) | (_ & ->)]; discriminate).
  destruct (process_cmd out od fams k f (log (Call a) s)) as [s1 o] eqn:E. intros E2. injection E2 as <- <-.
  assert (Hnb : is_ban k = false) by (destruct Hk as [(-> & _) | (-> & _)]; reflexivity).
  apply (process_spec out od fams c0 k f _ _ _ a (s_trace s)) in E; auto.
  2:{ reflexivity. }
  2:{ destruct Hk as [(-> & -> & Hf) | (-> & ->)]; cbn; auto. }
  2:{ exact I. }
  2:{ exists a, (s_trace s). now left. }
  2:{ intros _. destruct Hk as [(-> & -> & Hf) | (-> & ->)]; [|now right]. left. cbn. now apply filled_up. }
  destruct E as [Hcore Hcfg Hgood Hinv Hep (new & Tn & Htr & Hev & Hbad & Hlast) Hrep].
  split; [apply Hinv; now right|]. split; [exact Hcfg|]. split; [exact Hep|]. split; [exact Hrep|]. exists new. split; [exact Tn|]. split; [exact Hev|]. split; [exact Htr|]. split; [|split; [|exact Hlast]].
  - destruct o as [[]|].
    + split; [intros _|auto]. destruct (Hgood eq_refl) as (h & tr & Tg & Hg & _).
      destruct new as [|e new']; [destruct Hlast as (x & old & El); now destruct old|].
      rewrite Tg in Tn. injection Tn as <- _. now exists h, new'.
    + split; [discriminate|]. intros (h & old & -> & Hg). rewrite (Hbad ltac:(discriminate) h) in Hg by now left. discriminate Hg.
    + split; [discriminate|]. intros (h & old & -> & Hg). rewrite (Hbad ltac:(discriminate) h) in Hg by now left. discriminate Hg.
  - intros Hr. destruct o as [[]|]; [congruence| |]; (split; [reflexivity|]; apply Hbad; discriminate).
Qed.

(** the consistency check *)
Definition check_event (f : fam) (e : event) : Prop := repair_event f e \/ e = GaveUp f.
Definition nonzero (items : list (fam * Z)) : list fam := map fst (filter (fun kv => negb (snd kv =? 0)) items).
Lemma up_check f g new tr : g <> f -> (forall e, In e new -> check_event f e) -> up g (new ++ tr) = up g tr.
Proof.
  intros N. induction new as [|e n IH]; intros H; [reflexivity|]. assert (IH' := IH (fun e' H' => H e' (or_intror H'))).
  assert (Ef : eqb f g = false) by (apply eqb_neq; congruence).
  destruct (H e (or_introl eq_refl)) as [(k & h & -> & _)| ->]; cbn; rewrite Ef; exact IH'.
Qed.
Lemma check_all_spec rp items : forall s s' r past, Inv s -> in_call (s_trace s) (ACheck rp) past -> NoDup (map fst items) ->
  (forall f, In f (nonzero items) -> up f (s_trace s) = true) ->
  c_check (s_cfg s) = true -> check_all out od fams rp items s = (s', r) ->
  Inv s' /\ s_cfg s' = s_cfg s /\ balanced s s' /\
  exists new, s_trace s' = new ++ s_trace s
    /\ (forall e, In e new -> exists f, In f (nonzero items) /\ check_event f e)
    /\ (r = Done -> forall f, up f (s_trace s) = true -> up f (s_trace s') = true)
    /\ (r = Broken -> exists f, up f (s_trace s) = true /\ up f (s_trace s') = false)
    /\ (r <> Raised -> forall f c, In f (nonzero items) -> c_cmd (s_cfg s) KCheck f = Some c -> c <> ""%string ->
          (exists h, In (Did KCheck f h) new) /\ (rp = true -> (exists c, In (Did KCheck f (Ran c true)) new) \/ In (GaveUp f) new)).
Proof.
  induction items as [|[f v] items IH]; intros s s' r past HI Hc Hnd Hup Hcc0.
  - intros E. injection E as <- <-. split; [exact HI|]. split; [reflexivity|]. split; [unfold balanced; reflexivity|]. exists []. split; [reflexivity|]. split; [intros e []|].
    split; [auto|]. split; [discriminate|]. intros _ f c [].
  - cbn [check_all]. cbn [map fst] in Hnd. inversion Hnd as [|? ? Hni Hnd']; subst. unfold nonzero. cbn [filter snd].
    destruct (v =? 0) eqn:Ev; cbn [negb].
    + apply (IH s s' r past); auto. intros g Hg. apply Hup. unfold nonzero. cbn [filter snd]. now rewrite Ev.
    + fold (nonzero items). cbn [map fst]. fold (nonzero items).
      assert (Hupf : up f (s_trace s) = true) by (apply Hup; unfold nonzero; cbn [filter snd]; rewrite Ev; now left).
      destruct (invariant_check out od fams f rp true s) as [s1 o] eqn:Ec.
      apply (check_spec out od fams c0 f rp true _ _ _ (ACheck rp) past) in Ec; auto; try discriminate.
      2:{ left. split; [|exact Hupf]. exists (ACheck rp), past. split; [exact Hc|]. eauto. }
      destruct Ec as [HI1 Hc1 (new1 & T1 & Hev1 & Hran1) Hval Hbad Hkeep Hsane _ Hep1].
      assert (Hsane1 : o = Some 1 -> forall c, c_cmd (s_cfg s) KCheck f = Some c -> c <> ""%string -> exists c, In (Did KCheck f (Ran c true)) new1).
      { intros Ho c Hcmd Hne. destruct (Hran1 eq_refl c Hcmd Hne) as (h & Hh). destruct (Hsane Ho) as [[_ Hs] | [(c' & r' & Hm) | [Hx _]]]; [|exists c'|discriminate Hx].
        - destruct Hs as [Hs | [Hs _]]; [congruence|discriminate Hs].
        - rewrite T1 in Hm. destruct new1 as [|e n1]; [destruct Hh|]. injection Hm as -> _. now left. }
      assert (Hnc1 : forall e, In e new1 -> forall a, e <> Call a) by now apply (repair_not_call f).
      assert (Hcall1 : in_call (s_trace s1) (ACheck rp) past) by (unfold in_call; rewrite T1, call_of_app by exact Hnc1; exact Hc).
      assert (Hni' : ~ In f (nonzero items)).
      { intros Hin. apply Hni. unfold nonzero in Hin. apply in_map_iff in Hin as (x & <- & Hx). apply filter_In in Hx as [Hx _]. now apply in_map. }
      assert (Hother : forall g, g <> f -> up g (s_trace s1) = up g (s_trace s)) by (intros g Hg; rewrite T1; now apply (up_repair f)).
      assert (Hup1 : forall g, In g (nonzero items) -> up g (s_trace s1) = true).
      { intros g Hg. rewrite Hother; [|intros ->; contradiction]. apply Hup. unfold nonzero. cbn [filter snd]. rewrite Ev. now right. }
      destruct o as [c|].
      2:{ intros E. injection E as <- <-. split; [exact HI1|]. split; [exact Hc1|]. split; [exact Hep1|]. exists new1. split; [exact T1|].
          split; [intros e He; exists f; split; [now left|left; auto]|]. split; [discriminate|]. split; [discriminate|]. congruence. }
      destruct (c =? 0) eqn:E0.
      * apply Z.eqb_eq in E0 as ->.
        set (s2 := op_del KStart f (set_started f 0 (log (GaveUp f) s1))).
        destruct (op_del_same KStart f (set_started f 0 (log (GaveUp f) s1))) as (D1 & D2 & D3 & _ & D5).
        assert (T2 : s_trace s2 = GaveUp f :: s_trace s1) by exact D3.
        assert (HI2 : Inv s2).
        { destruct HI1 as [(HR1 & HL1 & HG1) HF1]. split; [split; [|split]|].
          - unfold s2. rewrite D1, D3. cbn [s_cfg set_started log s_trace]. intros k Hk. rewrite op_del_exec. destruct (kind_eqb k KStart) eqn:Ek.
            + apply kind_eqb_true in Ek as ->. apply RecK_del; [apply HR1; reflexivity| | |discriminate].
              * cbn. apply eqb_refl.
              * intros g Ng. cbn. apply eqb_neq. congruence.
            + apply RecK_skip; [apply HR1; exact Hk| |discriminate]. destruct k; try discriminate Ek; try discriminate Hk; reflexivity.
          - rewrite T2. split; [|exact HL1]. cbn. split; [exists (ACheck rp), past; split; [exact Hcall1|eauto]|]. now apply Hbad.
          - rewrite T2. unfold s2. rewrite D1. exact HG1.
          - rewrite T2. unfold s2. rewrite D2. cbn. destruct HF1 as [Hd HF]. split; [now apply dwf_dset|]. intros g. rewrite sv_dset. cbn. rewrite (eqb_sym f g).
            destruct (eqb g f); [reflexivity|]. apply HF. }
        assert (Hep2 : balanced s s2).
        { unfold balanced. rewrite T2. unfold s2. rewrite D5. exact Hep1. }
        assert (Hc2 : s_cfg s2 = s_cfg s) by (unfold s2; rewrite D1; exact Hc1).
        destruct (check_all out od fams rp items s2) as [s3 r3] eqn:E3.
        apply (IH _ _ _ past) in E3; auto.
        2:{ unfold in_call. rewrite T2. exact Hcall1. }
        3:{ now rewrite Hc2. }
        2:{ intros g Hg. rewrite T2. cbn. assert (Ne : eqb f g = false) by (apply eqb_neq; intros <-; contradiction). rewrite Ne. now apply Hup1. }
        destruct E3 as (HI3 & Hc3 & Hep3 & new3 & T3 & Hev3 & Hdone3 & Hbrk3 & Hran3).
        intros E. assert (Es : s3 = s') by (destruct r3; congruence). subst s3.
        assert (Hdown : up f (s_trace s') = false).
        { rewrite T3, T2. clear -Hev3 Hni'. induction new3 as [|e n IHn]; [cbn; now rewrite eqb_refl|].
          destruct (Hev3 e (or_introl eq_refl)) as (g & Hg & Hge). assert (Ne : eqb g f = false) by (apply eqb_neq; intros ->; contradiction).
          assert (IH' := IHn (fun e' H' => Hev3 e' (or_intror H'))). destruct Hge as [(k & h & -> & _)| ->]; cbn; rewrite Ne; exact IH'. }
        split; [exact HI3|]. split; [congruence|]. split; [unfold balanced in *; congruence|].
        exists (new3 ++ GaveUp f :: new1). split; [rewrite T3, T2, T1, <- app_assoc; reflexivity|]. split; [|split; [|split]].
        -- intros e He. apply in_app_iff in He as [He|[<-|He]].
           ++ destruct (Hev3 e He) as (g & Hg & Hge). exists g. split; [now right|exact Hge].
           ++ exists f. split; [now left|now right].
           ++ exists f. split; [now left|left; auto].
        -- intros ->. destruct r3; discriminate E.
        -- intros _. exists f. auto.
        -- intros Hr g c Hg Hcc Hne. destruct Hg as [<-|Hg].
           ++ split; [|intros _; right; apply in_app_iff; right; now left]. destruct (Hran1 eq_refl c Hcc Hne) as (h & Hh). exists h. apply in_app_iff. right. now right.
           ++ assert (Hr3 : r3 <> Raised) by (intros ->; congruence).
              destruct (Hran3 Hr3 g c Hg) as [(h & Hh) Hs3]; auto; [now rewrite Hc2|]. split; [exists h; apply in_app_iff; now left|].
              intros Hrp. destruct (Hs3 Hrp) as [(c' & Hc')|Hc']; [left; exists c'|right]; apply in_app_iff; now left.
      * apply Z.eqb_neq in E0. intros E. apply (IH _ _ _ past) in E; auto.
        2:{ congruence. }
        destruct E as (HI3 & Hc3 & Hep3 & new3 & T3 & Hev3 & Hdone3 & Hbrk3 & Hran3).
        assert (Hupf1 : up f (s_trace s1) = true).
        { apply Hkeep; auto. destruct Hval as [H | [H | [H | [H _]]]]; try discriminate H; auto. injection H as ->. contradiction. }
        split; [exact HI3|]. split; [congruence|]. split; [unfold balanced in *; congruence|]. exists (new3 ++ new1). split; [rewrite T3, T1, <- app_assoc; reflexivity|]. split; [|split; [|split]].
        -- intros e He. apply in_app_iff in He as [He|He].
           ++ destruct (Hev3 e He) as (g & Hg & Hge). exists g. split; [now right|exact Hge].
           ++ exists f. split; [now left|left; auto].
        -- intros Hr g Hg. apply Hdone3; auto. destruct (eqb_spec g f) as [->|N]; [exact Hupf1|]. now rewrite Hother.
        -- intros Hr. destruct (Hbrk3 Hr) as (g & H1 & H2). exists g. split; [|exact H2]. destruct (eqb_spec g f) as [->|N]; [exact Hupf|]. now rewrite <- Hother.
        -- intros Hr g c' Hg Hcc Hne. destruct Hg as [<-|Hg].
           ++ split; [destruct (Hran1 eq_refl c' Hcc Hne) as (h & Hh); exists h; apply in_app_iff; now right|].
              intros ->. left. destruct Hval as [H | [H | [H | [_ H]]]]; [discriminate H|congruence| |discriminate H].
              destruct (Hsane1 H c' Hcc Hne) as (c2 & H2). exists c2. apply in_app_iff. now right.
           ++ destruct (Hran3 Hr g c' Hg) as [(h & Hh) Hs3]; auto; [now rewrite Hc1|]. split; [exists h; apply in_app_iff; now left|].
              intros Hrp. destruct (Hs3 Hrp) as [(c2 & H2)|H2]; [left; exists c2|right]; apply in_app_iff; now left.
Qed.

Lemma check_step rp s s' r : Inv s -> step (ACheck rp) s = (s', r) ->
  Inv s' /\ s_cfg s' = s_cfg s /\ balanced s s' /\
  exists new, s_trace s' = new ++ Call (ACheck rp) :: s_trace s
    /\ (forall e, In e new -> c_check (s_cfg s) = true /\ exists f, up f (s_trace s) = true /\ check_event f e)
    /\ (r = Done -> forall f, up f (s_trace s) = true -> up f (s_trace s') = true)
    /\ (r = Broken -> exists f, up f (s_trace s) = true /\ up f (s_trace s') = false)
    /\ (r <> Raised -> c_check (s_cfg s) = true -> forall f c, up f (s_trace s) = true -> c_cmd (s_cfg s) KCheck f = Some c -> c <> ""%string ->
          (exists h, In (Did KCheck f h) new) /\ (rp = true -> (exists c, In (Did KCheck f (Ran c true)) new) \/ In (GaveUp f) new)).
Proof.
  intros HI. assert (HI1 : Inv (log (Call (ACheck rp)) s)) by (apply Inv_call; [exact HI|discriminate|discriminate]).
  unfold CmdAct_Model.step. cbn [s_cfg log]. destruct (c_check (s_cfg s)) eqn:Ec.
  - pose proof (fun f => nz_up _ _ f (proj2 HI1)) as Hin. change (s_started (log (Call (ACheck rp)) s)) with (s_started s) in *.
    change (forall f, In f (nonzero (s_started s)) <-> up f (s_trace s) = true) in Hin.
    intros E. apply (check_all_spec _ _ _ _ _ (s_trace s)) in E; auto.
    + destruct E as (F1 & F2 & F2' & new & F3 & F4 & F5 & F6 & F7). split; [exact F1|]. split; [exact F2|]. split; [exact F2'|]. exists new.
      split; [exact F3|]. split; [|split; [exact F5|split; [exact F6|]]].
      * intros e He. split; [reflexivity|]. destruct (F4 e He) as (f & Hf & Hfe). exists f. split; [now apply Hin|exact Hfe].
      * intros Hr _ f c Hf. apply F7; auto. now apply Hin.
    + reflexivity.
    + apply HI.
    + intros f Hf. now apply Hin.
  - intros E. injection E as <- <-. split; [exact HI1|]. split; [reflexivity|]. split; [unfold balanced; reflexivity|]. exists []. split; [reflexivity|]. split; [intros e []|].
    split; [auto|]. split; [discriminate|]. discriminate.
Qed.

(** every call keeps the invariant *)
Lemma step_ban k f a s s' r : Inv s -> (a = ABan f /\ k = KBan \/ a = AReban f /\ k = (if c_reban (s_cfg s) then KReban else KBan)) ->
  step a s = (s', r) -> do_ban out od fams k f (log (Call a) s) = (s', r) /\ Inv (log (Call a) s) /\ is_ban k = true /\ call_for (s_cfg s) k f a (s_trace s).
Proof.
  intros HI Ha E. split; [destruct Ha as [[-> ->] | [-> ->]]; exact E|]. split; [apply Inv_call; [exact HI|..]; destruct Ha as [[-> _] | [-> _]]; discriminate|].
  destruct Ha as [[-> ->] | [-> ->]]; [cbn; auto|]. destruct (c_reban (s_cfg s)) eqn:Er; cbn; auto.
Qed.
Lemma step_inv a s : fams <> [] -> Inv s -> Inv (fst (step a s)) /\ balanced s (fst (step a s)).
Proof.
  intros Hne HI. destruct (step a s) as [s' r] eqn:E. cbn [fst].
  assert (Hban : forall k f, (a = ABan f /\ k = KBan \/ a = AReban f /\ k = (if c_reban (s_cfg s) then KReban else KBan)) -> Inv s' /\ balanced s s').
  { intros k f Ha. destruct (step_ban k f a s s' r HI Ha E) as (E' & HI1 & Hb & Hf).
    apply (ban_spec out od fams c0 _ _ _ _ _ a (s_trace s)) in E'; auto. destruct E' as (F1 & F2 & F3 & F4 & _). split; [exact F1|exact F4]. }
  destruct a.
  - apply start_all in E; auto. destruct E as (H1 & _ & H2 & _). auto.
  - apply (Hban KBan f); auto.
  - eapply (Hban _ f); eauto.
  - apply unban_prolong in E; auto. destruct E as (H1 & _ & H2 & _). auto.
  - unfold CmdAct_Model.step in E. rewrite sv_started in E. change (s_started (log (Call (AUnban f)) s)) with (s_started s) in E. rewrite (Flags_2 _ _ f (proj2 HI)) in E.
    destruct (filled f (s_trace s)) eqn:Ef; cbn [negb] in E.
    + apply unban_prolong in E; auto. destruct E as (H1 & _ & H2 & _). auto.
    + injection E as <- <-. split; [apply Inv_call; [exact HI|discriminate|discriminate]|unfold balanced; reflexivity].
  - apply flush_all in E; auto. destruct E as (H1 & _ & H2 & _). auto.
  - apply stop_all in E; auto. destruct E as (H1 & _ & H2 & _). auto.
  - apply reload_all in E; auto. destruct E as (H1 & _ & H2 & _). auto.
  - apply check_step in E; auto. destruct E as (H1 & _ & H2 & _). auto.
  - injection E as <- <-. split; [|unfold balanced; reflexivity]. destruct HI as [(HR & HL & HG) HF]. split; [split; [|split]|]; cbn.
    + intros k Hk. split; try discriminate; [constructor|]. intros x cc r1 r2 E Hr. apply tail_split in E as [(_ & E & _) | (r1' & -> & _)]; [discriminate E|discriminate Hr].
    + split; [exact I|exact HL].
    + reflexivity.
    + apply Flags_neutral; [apply neutral_call; discriminate|exact HF].
Qed.
Lemma run_inv l : fams <> [] -> forall s, Inv s -> Inv (run l s) /\ balanced s (run l s).
Proof.
  intros Hne. induction l as [|a l IH]; intros s HI; [split; [exact HI|unfold balanced; reflexivity]|]. cbn.
  destruct (step_inv a s Hne HI) as [H1 H2]. destruct (IH _ H1) as [H3 H4]. split; [exact H3|]. unfold balanced in *. congruence.
Qed.
End Steps.
Lemma init_inv od fams c : Inv od fams c (init c).
Proof.
  split; [split; [|split]|]; cbn; auto.
  - intros k Hk. split; try discriminate; [constructor|]. intros x cc r1 r2 E. now destruct r1.
  - split; [constructor|]. reflexivity.
Qed.
