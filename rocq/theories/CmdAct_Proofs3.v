(** Proofs about the life cycle of a command action: the calls and the histories. *)
From Verif Require Import Base CmdAct_Model CmdAct_Spec CmdAct_Proofs CmdAct_Proofs2.

Definition is_ban (k : kind) : bool := match k with KBan | KReban => true | _ => false end.
Definition ticket_kind (k : kind) : Prop := k = KBan \/ k = KReban \/ k = KUnban \/ k = KProlong.

(** the call that asks for a command about a ticket *)
Definition call_for (cf : cfg) (k : kind) (f : fam) (a : api) (past : list event) : Prop :=
  match k with
  | KBan => a = ABan f \/ a = AReban f /\ c_reban cf = false
  | KReban => a = AReban f /\ c_reban cf = true
  | KUnban => a = AUnban f /\ filled f past = true
  | KProlong => a = AProlong f
  | _ => False
  end.
Lemma call_for_kind cf k f a past : call_for cf k f a past -> ticket_kind k.
Proof. unfold ticket_kind. destruct k; cbn; tauto. Qed.
Lemma repairs_ticket k f h tr : ticket_kind k -> repairs (Did k f h :: tr) = repairs tr.
Proof. intros [-> | [-> | [-> | ->]]]; reflexivity. Qed.

Section Calls.
Context (out : nat -> bool) (od : bool) (fams : list fam) (c0 : cfg).
Local Notation Inv := (Inv od fams c0).
Local Notation Core := (Core od fams c0).
Local Notation attempt := (attempt out).
Local Notation process_cmd := (process_cmd out od fams).
Definition balanced (s s' : st) : Prop := s_epoch s' - repairs (s_trace s') = s_epoch s - repairs (s_trace s).

(** one attempt: the event, and the flags as they were before it (a good ban sets them only afterwards) *)
Lemma attempt_spec k f s s' o : Inv s -> ticket_kind k -> (forall h, configured (s_cfg s) k f h -> allowed od fams (s_cfg s) (Did k f h) (s_trace s)) ->
  attempt k f s = (s', o) ->
  exists h, s_trace s' = Did k f h :: s_trace s /\ Core s' /\ s_cfg s' = s_cfg s /\ s_started s' = s_started s
    /\ o = match h with NoCmd => None | _ => Some (good h) end
    /\ (is_ban k && good h = false -> Inv s') /\ (o = Some false -> exists c, h = Ran c false) /\ balanced s s'.
Proof.
  intros HI Hk Hal. pose proof HI as [HC HF]. unfold CmdAct_Model.attempt. destruct (c_cmd (s_cfg s) k f) as [cmd|] eqn:Ecmd.
  - destruct (execute out k f cmd s) as [s1 b] eqn:Ex. intros E. injection E as <- <-.
    apply execute_spec in Ex as (h & E1 & E2 & E3 & E4 & E5 & E5' & E6).
    assert (Hp : plain (Did k f h)) by (left; destruct Hk as [-> | [-> | [-> | ->]]]; reflexivity).
    assert (Hc : Core s1).
    { apply (Core_plain od fams c0 s _ (Did k f h)); auto. apply Hal. destruct E6 as [[-> ->] | [-> N]]; cbn; auto. }
    exists h. repeat (split; [solve [auto]|]). split; [destruct E6 as [[-> _] | [-> _]]; cbn in *; congruence|]. split; [|split].
    + intros Hb. split; [exact Hc|]. rewrite E1, E3. apply Flags_neutral; auto.
      destruct Hk as [-> | [-> | [-> | ->]]]; try (apply neutral_did; solve [auto]); apply neutral_bad; auto; discriminate.
    + intros Hb. injection Hb as Hb. destruct E6 as [[-> _] | [-> _]]; cbn in *; [congruence|]. exists cmd. congruence.
    + unfold balanced. rewrite E1, E5', repairs_ticket by exact Hk. reflexivity.
  - intros E. injection E as <- <-. exists NoCmd. cbn [s_trace log].
    assert (Hc : Core (log (Did k f NoCmd) s)).
    { apply (Core_plain od fams c0 s _ (Did k f NoCmd)); auto. now right. }
    repeat (split; [solve [auto]|]). split; [|split; [discriminate|unfold balanced; cbn [s_trace s_epoch log]; rewrite repairs_ticket by exact Hk; reflexivity]].
    intros _. split; [exact Hc|]. cbn. apply Flags_neutral; auto. apply neutral_bad; auto; destruct Hk as [-> | [-> | [-> | ->]]]; discriminate.
Qed.

Record Processed (k : kind) (f : fam) (s s' : st) (o : option bool) : Prop := mkProcessed {
  pr_core : Core s';
  pr_cfg : s_cfg s' = s_cfg s;
  pr_good : o = Some true -> exists h tr, s_trace s' = Did k f h :: tr /\ good h = true /\ Flags (s_started s') tr;
  pr_inv : o <> Some true \/ is_ban k = false -> Inv s';
  pr_epoch : balanced s s';
  pr_new : exists new, s_trace s' = new ++ s_trace s /\ (tries k f new = 1 \/ tries k f new = 2)%nat
    /\ (forall e, In e new -> (exists h, e = Did k f h) \/ repair_event f e)
    /\ (o <> Some true -> forall h, In (Did k f h) new -> good h = false)
    /\ (exists h old, new = old ++ [Did k f h]);
  pr_retry : k <> KUnban \/ c_repair_on_unban (s_cfg s) = true -> forall c h tr, s_trace s' <> Did KCheck f (Ran c false) :: Did k f h :: tr }.

Lemma tries_repair k f new : ticket_kind k -> (forall e, In e new -> repair_event f e) -> tries k f new = 0%nat.
Proof.
  intros Hk. induction new as [|e n IH]; intros H; [reflexivity|]. destruct (H e (or_introl eq_refl)) as (k' & h & -> & Hk').
  cbn. rewrite IH by (intros e' H'; apply H; now right). rewrite Nat.add_0_r.
  destruct Hk as [-> | [-> | [-> | ->]]], Hk' as [-> | [-> | [-> | ->]]]; reflexivity.
Qed.
Lemma tries_app k f a b : (forall e, In e a -> forall x, e <> Call x) -> tries k f (a ++ b) = (tries k f a + tries k f b)%nat.
Proof.
  induction a as [|e n IH]; intros H; [reflexivity|]. pose proof (H e (or_introl eq_refl)) as He.
  destruct e; [now destruct (He a)| |]; cbn; rewrite IH by (intros e' H'; apply H; now right); lia.
Qed.
Lemma repair_not_call f new : (forall e, In e new -> repair_event f e) -> forall e, In e new -> forall a, e <> Call a.
Proof. intros H e He a ->. destruct (H _ He) as (k & h & E & _). discriminate E. Qed.
Lemma repair_not_ticket k f new h : ticket_kind k -> (forall e, In e new -> repair_event f e) -> ~ In (Did k f h) new.
Proof.
  intros Hk H Hin. destruct (H _ Hin) as (k' & h' & E & Hk'). injection E as -> ->.
  destruct Hk as [-> | [-> | [-> | ->]]], Hk' as [E | [E | [E | E]]]; discriminate E.
Qed.

Lemma process_spec k f s s' o a past : Inv s -> in_call (s_trace s) a past -> call_for (s_cfg s) k f a past ->
  ready (s_cfg s) k f (s_trace s) -> (exists p q, s_trace s = Call p :: q \/ exists h, s_trace s = Did KStart f h :: Call p :: q) ->
  (od = true \/ k = KUnban -> up f (s_trace s) = true \/ k = KProlong) ->
  process_cmd k f s = (s', o) -> Processed k f s s' o.
Proof.
  intros HI Hcall Hfor Hready Hhead Hup. pose proof (call_for_kind _ _ _ _ _ Hfor) as Hk. unfold CmdAct_Model.process_cmd.
  assert (Hal : forall tr h, in_call tr a past -> (od = true -> up f tr = true \/ is_ban k = false) -> ready (s_cfg s) k f tr -> configured (s_cfg s) k f h ->
     allowed od fams (s_cfg s) (Did k f h) tr).
  { intros tr h Hc Hu Hr Hconf. split; [exact Hconf|].
    assert (Hu' : is_ban k = true -> od = true -> up f tr = true) by (intros Hb Ho; destruct (Hu Ho) as [H|H]; congruence).
    destruct k; cbn in Hfor; try contradiction; (split; [eexists _, _; split; [exact Hc|exact Hfor]|]); auto. }
  destruct (attempt k f s) as [s1 o1] eqn:E1.
  apply attempt_spec in E1 as (h1 & T1 & C1 & G1 & S1 & O1 & I1 & B1 & P1); auto.
  2:{ intros h Hc. apply Hal; auto. intros Ho. destruct (Hup (or_introl Ho)) as [H|H]; auto. right. now subst k. }
  assert (Htry1 : forall h, tries k f [Did k f h] = 1%nat).
  { intros h. cbn. now rewrite kind_eqb_refl, eqb_refl. }
  assert (Hfirst : o1 <> Some false -> s1 = s' -> o1 = o -> Processed k f s s' o).
  { intros Hne <- <-. split; auto.
    - intros ->. exists h1, (s_trace s). split; [exact T1|]. split; [destruct h1; congruence|]. rewrite S1. apply HI.
    - intros Hb. apply I1. destruct Hb as [Hb|Hb]; [|now rewrite Hb]. destruct h1 as [c []| | |]; cbn in *; subst o1; try congruence; apply andb_false_r.
    - exists [Did k f h1]. split; [exact T1|]. split; [left; apply Htry1|]. split; [intros e [<-|[]]; left; eauto|]. split.
      + intros Hn h [E|[]]. injection E as <-. subst o1. destruct h1 as [c []| | |]; cbn in *; congruence.
      + now exists h1, [].
    - intros _ c h tr E. rewrite T1 in E. injection E as E _. subst k. destruct Hk as [E | [E | [E | E]]]; discriminate E.
 }
  destruct o1 as [[]|]; try (intros E; injection E as <- <-; apply Hfirst; congruence). clear Hfirst.
  destruct (B1 eq_refl) as (c1 & ->). assert (HI1 : Inv s1) by (apply I1; cbn; apply andb_false_r). clear I1 B1 O1.
  assert (Hcall1 : in_call (s_trace s1) a past) by (rewrite T1; exact Hcall).
  assert (Hupeq : up f (s_trace s1) = up f (s_trace s)).
  { rewrite T1. cbn. rewrite eqb_refl. destruct Hk as [-> | [-> | [-> | ->]]]; reflexivity. }
  (* the second attempt, after the events [mid] *)
  assert (Hsecond : forall s2 mid s' o, Inv s2 -> s_cfg s2 = s_cfg s -> s_trace s2 = mid ++ s_trace s1 -> (forall e, In e mid -> repair_event f e) ->
             (od = true -> up f (s_trace s2) = true \/ is_ban k = false) -> ready (s_cfg s) k f (s_trace s2) -> balanced s s2 -> attempt k f s2 = (s', o) -> Processed k f s s' o).
  { clear s' o. intros s2 mid s' o HI2 Hc2 T2 Hmid Hup2 Hr2 P2 E2.
    assert (Hcall2 : in_call (s_trace s2) a past).
    { unfold in_call. rewrite T2, call_of_app; [exact Hcall1|]. now apply (repair_not_call f). }
    apply attempt_spec in E2 as (h2 & T3 & C3 & G3 & S3 & O3 & I3 & B3 & P3); auto.
    2:{ rewrite Hc2. auto. }
    split; auto.
    - congruence.
    - intros ->. exists h2, (s_trace s2). split; [exact T3|]. split; [destruct h2; congruence|]. rewrite S3. apply HI2.
    - intros Hb. apply I3. destruct Hb as [Hb|Hb]; [|now rewrite Hb]. destruct h2 as [c []| | |]; cbn in *; subst o; try congruence; apply andb_false_r.
    - unfold balanced in *. congruence.
    - exists (Did k f h2 :: mid ++ [Did k f (Ran c1 false)]). split; [rewrite T3, T2, T1; cbn; now rewrite <- app_assoc|]. split; [right|split; [|split]].
      + change (Did k f h2 :: mid ++ [Did k f (Ran c1 false)]) with ([Did k f h2] ++ mid ++ [Did k f (Ran c1 false)]).
        rewrite tries_app by (intros e [<-|[]]; discriminate). rewrite tries_app by now apply (repair_not_call f).
        rewrite !Htry1, (tries_repair k f mid) by auto. reflexivity.
      + intros e [<-|He]; [left; eauto|]. apply in_app_iff in He as [He|[<-|[]]]; [right; auto|left; eauto].
      + intros Hn h [E|He].
        * injection E as <-. subst o. destruct h2 as [c []| | |]; cbn in *; congruence.
        * apply in_app_iff in He as [He|[E|[]]]; [|now injection E as <-]. now apply repair_not_ticket in He.
      + exists (Ran c1 false), (Did k f h2 :: mid). reflexivity.
    - intros _ c h tr E. rewrite T3 in E. injection E as E _. subst k. destruct Hk as [E | [E | [E | E]]]; discriminate E.
 }
  destruct (c_check (s_cfg s1)) eqn:Ecc.
  - destruct (invariant_check out od fams f _ _ s1) as [s2 oc] eqn:Ec.
    assert (Hun : is_unban k = true -> k = KUnban) by (destruct k; try discriminate; reflexivity).
    apply (check_spec out od fams c0 f _ _ _ _ _ a past) in Ec; auto.
    2:{ right. exists k, c1, (s_trace s). split; [exact T1|exact Hk]. }
    2:{ rewrite G1. intros Hb. clear - Hfor Hb. destruct k; cbn in Hfor, Hb; try contradiction; cbn.
        - destruct Hfor as [-> | [-> _]]; exact I.
        - destruct Hfor as [-> _]; exact I.
        - destruct Hfor as [-> _]; exact Hb.
        - subst a; exact I. }
    2:{ intros Hb. apply negb_false_iff, Hun in Hb. subst k. apply Hfor. }
    2:{ intros _ Hb Ha. clear - Hfor Hb Ha. destruct k; cbn in Hfor, Hb; try contradiction; try discriminate Hb.
        - destruct Hfor as [E|[E _]]; congruence.
        - destruct Hfor; congruence.
        - congruence. }
    destruct Ec as [HI2 Hc2 (mid & T2 & Hmid & _) Hval Hbad Hu Hsane Htry Hep].
    assert (P2 : balanced s s2) by (unfold balanced in *; congruence).
    assert (Hstop : s2 = s' -> o <> Some true -> Processed k f s s' o).
    { intros <- Hn. split; auto.
      - apply HI2.
      - congruence.
      - intros ->. congruence.
      - exists (mid ++ [Did k f (Ran c1 false)]). split; [rewrite T2, T1, <- app_assoc; reflexivity|]. split; [left|split; [|split]].
        + rewrite tries_app by now apply (repair_not_call f). rewrite Htry1, (tries_repair k f mid) by auto. reflexivity.
        + intros e He. apply in_app_iff in He as [He|[<-|[]]]; [right; auto|left; eauto].
        + intros _ h He. apply in_app_iff in He as [He|[E|[]]]; [|now injection E as <-]. now apply repair_not_ticket in He.
        + now exists (Ran c1 false), mid.
      - intros Hb c h tr E. rewrite T2, T1 in E. destruct mid as [|e1 [|e2 mid]].
        + injection E as E _. subst k. destruct Hk as [E | [E | [E | E]]]; discriminate E.
        + injection E as -> _. apply (Htry) with (c := c); [|rewrite T2; reflexivity].
          destruct Hb as [Hb|Hb]; [|rewrite G1, Hb; apply orb_true_r]. destruct k; try reflexivity. now destruct Hb.
        + injection E as _ -> _. apply (repair_not_ticket k f _ h Hk Hmid). right. now left. }
    destruct oc as [c|]; [|intros E; injection E as <- <-; apply Hstop; [reflexivity|discriminate]].
    destruct (c =? 1) eqn:E1c; [|intros E; injection E as <- <-; apply Hstop; [reflexivity|discriminate]].
    apply Z.eqb_eq in E1c as ->. intros E. eapply (Hsecond s2 mid); eauto; [congruence| |].
    + intros Ho. destruct (is_ban k) eqn:Eb; [left|auto]. apply Hu; auto; [destruct k; try discriminate Eb; reflexivity|]. rewrite Hupeq. destruct (Hup (or_introl Ho)) as [H|H]; [exact H|]. now subst k.
    + destruct (Hsane eq_refl) as [[Hm Hs] | [(c & r & Hm) | [Hf (h & r & Hm)]]]; rewrite Hm.
      * assert (Hs' : c_check (s_cfg s) = false \/ c_cmd (s_cfg s) KCheck f = Some ""%string).
        { right. rewrite <- G1. destruct Hs as [Hs | [Hf Hs]]; [exact Hs|]. apply negb_false_iff, Hun in Hf. subst k.
          destruct (Hup (or_intror eq_refl)) as [H|H]; [|discriminate H]. rewrite <- Hupeq in H. exfalso.
          pose proof (Flags_nz _ _ f (proj2 HI1)) as Hz. rewrite H in Hz. unfold sv in Hz. unfold dmem in Hs. destruct (dget f (s_started s1)); [discriminate Hs|discriminate Hz]. }
        rewrite T1. destruct Hhead as (p & q & [Hh | (h & Hh)]); rewrite Hh; destruct Hk as [-> | [-> | [-> | ->]]]; cbn; auto.
      * reflexivity.
      * apply negb_false_iff, Hun in Hf. cbn. auto.
  - intros E. eapply (Hsecond s1 []); eauto.
    + intros e [].
    + intros Ho. rewrite Hupeq. destruct (Hup (or_introl Ho)) as [H|H]; auto. right. now subst k.
    + rewrite T1. assert (Hs' : c_check (s_cfg s) = false \/ c_cmd (s_cfg s) KCheck f = Some ""%string) by (left; congruence).
      destruct Hhead as (p & q & [Hh | (h & Hh)]); rewrite Hh; destruct Hk as [-> | [-> | [-> | ->]]]; cbn; auto.
Qed.

Lemma Inv_call a s : Inv s -> a <> AStop -> (forall c, a <> ASet c) -> Inv (log (Call a) s).
Proof. intros HI Ha Hs. apply log_neutral; auto. - now apply neutral_call. - destruct a; cbn; auto. now destruct (Hs c). - exact I. Qed.

Lemma ban_spec k f s s' r a past : Inv s -> is_ban k = true -> s_trace s = Call a :: past -> call_for (s_cfg s) k f a past ->
  do_ban out od fams k f s = (s', r) ->
  Inv s' /\ s_cfg s' = s_cfg s /\ r <> Broken /\ balanced s s'
  /\ exists new, s_trace s' = new ++ s_trace s /\ (forall e, In e new -> (exists h, e = Did k f h) \/ repair_event f e)
       /\ (tries k f new <= 2)%nat
       /\ (r = Done -> up f (s_trace s') = true /\ filled f (s_trace s') = true /\ exists h old, new = Did k f h :: old /\ good h = true)
       /\ (r <> Done -> forall h, In (Did k f h) new -> good h = false)
       /\ (od = true -> up f (s_trace s) = false -> exists h old, new = old ++ [Did KStart f h])
       /\ (od = false \/ up f (s_trace s) = true -> exists h old, new = old ++ [Did k f h])
       /\ (forall c h tr, s_trace s' <> Did KCheck f (Ran c false) :: Did k f h :: tr).
Proof.
  intros HI Hb HT Hfor. unfold do_ban.
  rewrite sv_started, (Flags_nz _ _ f (proj2 HI)), negb_involutive || rewrite sv_started, (Flags_nz _ _ f (proj2 HI)).
  assert (Hcall : in_call (s_trace s) a past) by (unfold in_call; now rewrite HT).
  assert (Hk : ticket_kind k) by (destruct k; try discriminate Hb; unfold ticket_kind; auto).
  assert (Hmain : forall s1 pre, Inv s1 -> s_cfg s1 = s_cfg s -> s_trace s1 = pre ++ s_trace s -> balanced s s1 -> (pre = [] \/ exists h, pre = [Did KStart f h] /\ good h = true) ->
     (od = true -> up f (s_trace s1) = true) ->
     match process_cmd k f s1 with (s, Some true) => (set_started f (Z.lor (started s f) 3) s, Done) | (s, _) => (s, Raised) end = (s', r) ->
     Inv s' /\ s_cfg s' = s_cfg s /\ r <> Broken /\ balanced s s'
     /\ exists new, s_trace s' = new ++ pre ++ s_trace s /\ (forall e, In e new -> (exists h, e = Did k f h) \/ repair_event f e)
       /\ (tries k f new <= 2)%nat
       /\ (r = Done -> up f (s_trace s') = true /\ filled f (s_trace s') = true /\ exists h old, new = Did k f h :: old /\ good h = true)
       /\ (r <> Done -> forall h, In (Did k f h) new -> good h = false)
       /\ (exists h old, new = old ++ [Did k f h])
       /\ (forall c h tr, s_trace s' <> Did KCheck f (Ran c false) :: Did k f h :: tr)).
  { intros s1 pre HI1 Hc1 T1 P1 Hpre Hup1. destruct (process_cmd k f s1) as [s2 o] eqn:Ep.
    assert (Hcall1 : in_call (s_trace s1) a past).
    { unfold in_call. rewrite T1. destruct Hpre as [-> | (h & -> & _)]; exact Hcall. }
    apply (process_spec k f _ _ _ a past) in Ep; auto.
    2:{ now rewrite Hc1. }
    2:{ rewrite T1, HT. destruct Hpre as [-> | (h & -> & Hg)]; [exact I|]. destruct h as [cc []| | |]; cbn; auto. }
    2:{ exists a, past. rewrite T1, HT. destruct Hpre as [-> | (h & -> & Hg)]; [now left|right; now exists h]. }
    2:{ intros [Ho|Ho]; [left; auto|]. subst k. discriminate Hb. }
    destruct Ep as [Hcore Hcfg Hgood Hinv Hep (new & Tn & Htr & Hev & Hbad & Hlast) Hrep].
    assert (P2 : balanced s s2) by (unfold balanced in *; congruence).
    assert (Hrep' : forall c h tr, s_trace s2 <> Did KCheck f (Ran c false) :: Did k f h :: tr) by (apply Hrep; left; intros ->; discriminate Hb).
    rewrite T1 in Tn.
    assert (Htr' : (tries k f new <= 2)%nat) by (destruct Htr as [-> | ->]; lia).
    destruct o as [[]|].
    - intros E. injection E as <- <-. destruct (Hgood eq_refl) as (h & tr & Tg & Hg & Fg).
      assert (Hu : up f (Did k f h :: tr) = true /\ filled f (Did k f h :: tr) = true).
      { destruct k; try discriminate Hb; cbn; rewrite eqb_refl, Hg; auto. }
      split; [|split; [cbn; congruence|split; [discriminate|split; [exact P2|]]]].
      + split; [exact Hcore|]. cbn. rewrite Tg. apply Flags_set; [exact Fg|]. destruct Hu as [-> ->].
        rewrite sv_started. destruct Fg as [_ Fg]. rewrite Fg. unfold val. destruct (up f tr); [|reflexivity]. now destruct (filled f tr).
      + exists new. cbn [s_trace set_started].
        split; [exact Tn|]. split; [exact Hev|]. split; [exact Htr'|]. split.
        * intros _. rewrite Tg. split; [apply Hu|]. split; [apply Hu|].
          destruct new as [|e new']; [destruct Hlast as (x & old & El); now destruct old|].
          rewrite Tg in Tn. injection Tn as <- _. now exists h, new'.
        * split; [congruence|]. auto.
    - intros E. injection E as <- <-. split; [apply Hinv; left; discriminate|]. split; [congruence|]. split; [discriminate|]. split; [exact P2|].
      exists new. split; [exact Tn|]. split; [exact Hev|]. split; [exact Htr'|]. split; [discriminate|]. split; [intros _; apply Hbad; discriminate|]. auto.
    - intros E. injection E as <- <-. split; [apply Hinv; left; discriminate|]. split; [congruence|]. split; [discriminate|]. split; [exact P2|].
      exists new. split; [exact Tn|]. split; [exact Hev|]. split; [exact Htr'|]. split; [discriminate|]. split; [intros _; apply Hbad; discriminate|]. auto. }
  destruct (od && negb (up f (s_trace s))) eqn:Eo.
  - apply andb_true_iff in Eo as [Ho Hu]. apply negb_true_iff in Hu.
    unfold do_start. cbn [negb andb]. destruct (exec_operation out KStart [f] after_start s) as [s1 r1] eqn:Es.
    apply (start_one out od fams c0) in Es as (HI1 & Hc1 & He1 & h & T1 & Hr1); auto.
    2:{ intros h Hconf Hsh. split; [exact Hconf|]. split; [|exact Hsh]. right. left. split; [exact Hu|]. split; [exact Ho|].
        exists past. rewrite HT. destruct k; try discriminate Hb; cbn in Hfor; [destruct Hfor as [-> | [-> _]]|destruct Hfor as [-> _]]; auto. }
    assert (P1 : balanced s s1).
    { unfold balanced. rewrite He1, T1, HT, repairs_other; [reflexivity|discriminate]. }
    destruct (good h) eqn:Eg; subst r1.
    + intros E. apply (Hmain s1 [Did KStart f h]) in E; auto.
      * destruct E as (F1 & F2 & F3 & P3 & new & F4 & F5 & F6 & F7 & F8 & F9 & F10). split; [exact F1|]. split; [exact F2|]. split; [exact F3|]. split; [exact P3|].
        exists (new ++ [Did KStart f h]). split; [rewrite F4, <- app_assoc; reflexivity|]. split.
        { intros e He. apply in_app_iff in He as [He|[<-|[]]]; auto. right. eexists _, _. split; [reflexivity|auto]. }
        split.
        { rewrite tries_app. - destruct k; try discriminate Hb; cbn; lia. - intros e He x ->. destruct (F5 _ He) as [(h' & E)|(k' & h' & E & _)]; discriminate E. }
        split.
        { intros Hr. destruct (F7 Hr) as (U1 & U2 & h' & old & -> & Hg). split; [exact U1|]. split; [exact U2|]. exists h', (old ++ [Did KStart f h]). auto. }
        split.
        { intros Hr h' Hin. apply in_app_iff in Hin as [Hin|[E|[]]]; [eauto|]. injection E as E _. subst k. discriminate Hb. }
        split; [intros _ _; exists h, new; reflexivity|]. split; [intros [H|H]; congruence|exact F10].
      * right. eauto.
      * intros _. rewrite T1. now apply up_did_start.
    + intros E. injection E as <- <-. split; [exact HI1|]. split; [exact Hc1|]. split; [discriminate|]. split; [exact P1|].
      exists [Did KStart f h]. split; [exact T1|]. split; [intros e [<-|[]]; right; eexists _, _; split; [reflexivity|auto]|].
      split; [destruct k; try discriminate Hb; cbn; lia|]. split; [discriminate|]. split.
      { intros _ h' [E|[]]. injection E as E _. subst k. discriminate Hb. }
      split; [intros _ _; now exists h, []|]. split; [intros [H|H]; congruence|]. intros c h' tr E. rewrite T1 in E. discriminate E.
  - intros E. apply (Hmain s []) in E; auto.
    + destruct E as (F1 & F2 & F3 & P3 & new & F4 & F5 & F6 & F7 & F8 & F9 & F10). split; [exact F1|]. split; [exact F2|]. split; [exact F3|]. split; [exact P3|].
      exists new. repeat (split; [solve [auto]|]). split; [intros Ho Hu; rewrite Ho, Hu in Eo; discriminate Eo|]. auto.
    + unfold balanced. reflexivity.
    + intros Ho. rewrite Ho in Eo. cbn in Eo. now apply negb_false_iff in Eo.
Qed.
End Calls.
