(** C43: the life cycle of a command action, for every configuration, every history of calls and every
    outcome of the commands.  [out] gives the outcome of the i-th command; [up], [filled], [allowed] and
    [lawful] (CmdAct_Spec) read the trace of calls and commands, not the flags of the action. *)
From Verif Require Import Base CmdAct_Model CmdAct_Spec CmdAct_Proofs CmdAct_Proofs2 CmdAct_Proofs3 CmdAct_Proofs4.

Section Histories.
Context (out : nat -> bool) (on_demand : bool) (families : list fam) (c : cfg) (ops : list api).
Hypothesis (has_family : families <> []).
Let s := run out on_demand families ops (init c).
Let past := s_trace s.

Local Lemma s_inv : Inv on_demand families c s.
Proof. apply run_inv; auto. apply init_inv. Qed.

(** No command runs that the state of its family, the configuration in force and the call do not ask for. *)
Theorem C43_lawful : lawful on_demand families c (s_trace (run out on_demand families ops (init c))).
Proof. exact (proj1 (proj2 (proj1 s_inv))). Qed.

(** The action counts the repairs of its environment (that makes the jail ban all its tickets again). *)
Theorem C43_epoch : s_epoch (run out on_demand families ops (init c)) = repairs (s_trace (run out on_demand families ops (init c))).
Proof.
  destruct (run_inv out on_demand families c ops has_family (init c) (init_inv _ _ _)) as [_ H]. unfold balanced in H. cbn [s_epoch init s_trace repairs] in H. lia.
Qed.

(** A ban: on demand the environment is set up first if it is not, the command is tried at most twice, the
    call succeeds exactly if the last try did, and then the family is up and counts as filled.  If the check after
    a failed try fails, the call does not leave it at that. *)
Theorem C43_ban a f k s' r :
  a = ABan f /\ k = KBan \/ a = AReban f /\ k = (if c_reban (s_cfg s) then KReban else KBan) ->
  step out on_demand families a s = (s', r) ->
  exists new, s_trace s' = new ++ Call a :: past
    /\ (forall e, In e new -> exists k' h, e = Did k' f h /\ In k' [k; KCheck; KStop; KStart; KRepair])
    /\ (tries k f new <= 2)%nat
    /\ (r = Done -> up f (s_trace s') = true /\ filled f (s_trace s') = true /\ exists h old, new = Did k f h :: old /\ good h = true)
    /\ (r <> Done -> r = Raised /\ forall h, In (Did k f h) new -> good h = false)
    /\ (on_demand = true -> up f past = false -> exists h old, new = old ++ [Did KStart f h])
    /\ (on_demand = false \/ up f past = true -> exists h old, new = old ++ [Did k f h])
    /\ (forall cmd h tr, s_trace s' <> Did KCheck f (Ran cmd false) :: Did k f h :: tr).
Proof.
  intros Ha E. pose proof s_inv as HI.
  destruct (step_ban out on_demand families c k f a s s' r HI Ha E) as (E' & HI1 & Hb & Hf).
  assert (Hna : up f (Call a :: past) = up f past) by (destruct Ha as [[-> _] | [-> _]]; reflexivity).
  apply (ban_spec out on_demand families c _ _ _ _ _ a past) in E'; auto.
  destruct E' as (_ & _ & Hr & _ & new & T & Hev & Htr & Hd & Hn & Hs1 & Hs2 & Hrep). exists new. change (s_trace (log (Call a) s)) with (Call a :: past) in *.
  split; [exact T|]. split; [|split; [exact Htr|split; [exact Hd|split; [|split; [|split]]]]].
  - intros e He. destruct (Hev e He) as [(h & ->) | (k' & h & -> & Hk)].
    + exists k, h. split; [reflexivity|now left].
    + exists k', h. split; [reflexivity|]. right. cbn. destruct Hk as [-> | [-> | [-> | ->]]]; auto.
  - intros H. split; [destruct r; congruence|auto].
  - intros Ho Hu. apply Hs1; auto. now rewrite Hna.
  - intros H. apply Hs2. now rewrite Hna.
  - exact Hrep.
Qed.

(** An unban runs nothing for a family without bans; otherwise the command is tried, at most twice. *)
Theorem C43_unban f s' r : step out on_demand families (AUnban f) s = (s', r) ->
  (filled f past = false -> s_trace s' = Call (AUnban f) :: past /\ r = Done)
  /\ (filled f past = true -> exists new h old, s_trace s' = new ++ Call (AUnban f) :: past /\ new = old ++ [Did KUnban f h]
      /\ (tries KUnban f new <= 2)%nat
      /\ (r = Done <-> exists h old, new = Did KUnban f h :: old /\ good h = true)
      /\ (r <> Done -> r = Raised /\ forall h, In (Did KUnban f h) new -> good h = false)
      /\ (c_repair_on_unban (s_cfg s) = true -> forall cmd h tr, s_trace s' <> Did KCheck f (Ran cmd false) :: Did KUnban f h :: tr)).
Proof.
  pose proof s_inv as HI. unfold step. rewrite sv_started. change (s_started (log (Call (AUnban f)) s)) with (s_started s). rewrite (Flags_2 _ _ f (proj2 HI)).
  fold past. destruct (filled f past) eqn:Ef; cbn [negb]; intros E; (split; [|intros H; try discriminate H]).
  - discriminate.
  - apply (unban_prolong out on_demand families c) in E; auto. destruct E as (_ & _ & _ & Hrep & new & T & _ & Htr & Hd & Hn & h & old & Hl).
    exists new, h, old. repeat (split; [solve [auto]|]). split; [destruct Htr as [-> | ->]; lia|]. auto.
  - intros _. injection E as <- <-. auto.
Qed.
Theorem C43_prolong f s' r : step out on_demand families (AProlong f) s = (s', r) ->
  exists new h old, s_trace s' = new ++ Call (AProlong f) :: past /\ new = old ++ [Did KProlong f h]
      /\ (tries KProlong f new <= 2)%nat
      /\ (r = Done <-> exists h old, new = Did KProlong f h :: old /\ good h = true)
      /\ (r <> Done -> r = Raised /\ forall h, In (Did KProlong f h) new -> good h = false)
      /\ (forall cmd h tr, s_trace s' <> Did KCheck f (Ran cmd false) :: Did KProlong f h :: tr).
Proof.
  intros E. pose proof s_inv as HI. apply (unban_prolong out on_demand families c) in E; auto. destruct E as (_ & _ & _ & Hrep & new & T & _ & Htr & Hd & Hn & h & old & Hl).
  exists new, h, old. repeat (split; [solve [auto]|]). split; [destruct Htr as [-> | ->]; lia|]. split; [exact Hd|]. split; [exact Hn|].
  apply Hrep. left. discriminate.
Qed.

Definition all_good (new : list event) : bool := forallb (fun e => match e with Did _ _ h => good h | _ => true end) new.

(** A flush works through the filled families and no others; where it went well the family is empty afterwards. *)
Theorem C43_flush s' r : step out on_demand families AFlush s = (s', r) ->
  exists new, s_trace s' = new ++ Call AFlush :: past
    /\ (forall e, In e new -> exists f h, e = Did KFlush f h /\ filled f past = true)
    /\ (forall f, filled f past = true -> exists h, In (Did KFlush f h) new)
    /\ r = (if all_good new then Done else Raised)
    /\ (r = Done -> forall f, filled f (s_trace s') = false).
Proof.
  intros E. pose proof s_inv as HI. apply (flush_all out on_demand families c) in E; auto. destruct E as (HI' & _ & _ & new & T & H1 & H2 & H3).
  exists new. repeat (split; [solve [auto]|]). intros Hr f.
  assert (Hg : all_good new = true) by (unfold all_good; destruct (forallb _ new); congruence). clear H3 Hr.
  rewrite T. destruct (filled f past) eqn:Ef.
  - destruct (H2 f Ef) as (h & Hh). clear H2 T. unfold all_good in Hg. rewrite forallb_forall in Hg. pose proof (Hg _ Hh) as Hgh. cbn in Hgh.
    induction new as [|e n IHn]; [destruct Hh|]. destruct (H1 e (or_introl eq_refl)) as (g & h' & -> & Hg').
    cbn. destruct (eqb_spec g f) as [->|N].
    + pose proof (Hg _ (or_introl eq_refl)) as Hx. cbn in Hx. now rewrite Hx.
    + destruct Hh as [E0|Hh]; [congruence|]. apply IHn; auto. intros x Hx. apply H1. now right. intros x Hx. apply Hg. now right.
  - clear H2 T Hg. induction new as [|e n IHn]; [exact Ef|]. destruct (H1 e (or_introl eq_refl)) as (g & h' & -> & Hg').
    cbn. destruct (eqb_spec g f) as [->|N]; [change (filled f past = true) in Hg'; congruence|]. apply IHn. intros x Hx. apply H1. now right.
Qed.

(** A stop works through the families that are up and no others; afterwards none is, whatever the commands did. *)
Theorem C43_stop s' r : step out on_demand families AStop s = (s', r) ->
  exists new, s_trace s' = new ++ Call AStop :: past
    /\ (forall e, In e new -> exists f h, e = Did KStop f h /\ up f past = true)
    /\ (forall f, up f past = true -> exists h, In (Did KStop f h) new)
    /\ r = (if all_good new then Done else Raised)
    /\ (forall f, up f (s_trace s') = false)
    (* and then there is nothing to unban, flush, reload, check or stop *)
    /\ (forall a, (exists f, a = AUnban f) \/ a = AFlush \/ a = AReload \/ a = AStop \/ (exists b, a = ACheck b) ->
          s_trace (fst (step out on_demand families a s')) = Call a :: s_trace s').
Proof.
  intros E. pose proof s_inv as HI. apply (stop_all out on_demand families c) in E; auto. destruct E as (HI' & _ & _ & new & T & H1 & H2 & H3).
  exists new. repeat (split; [solve [auto]|]).
  assert (Hdown : forall f, up f (s_trace s') = false).
  { intros f. rewrite T. clear -H1. induction new as [|e n IHn]; [reflexivity|]. destruct (H1 e (or_introl eq_refl)) as (g & h' & -> & Hg').
    cbn. destruct (eqb g f); [reflexivity|]. apply IHn. intros x Hx. apply H1. now right. }
  split; [exact Hdown|].
  assert (Hempty : forall f, filled f (s_trace s') = false).
  { intros f. pose proof (filled_up f (s_trace s')) as Hf. rewrite Hdown in Hf. destruct (filled f (s_trace s')); [now discriminate Hf|reflexivity]. }
  assert (Hnil : forall k a (Q : fam -> Prop) s2 r2, (forall f, ~ Q f) -> Worked on_demand families c k a Q s' s2 r2 -> s_trace s2 = Call a :: s_trace s').
  { intros k a Q s2 r2 HQ (_ & _ & _ & new2 & T2 & G1 & _). destruct new2 as [|e n]; [exact T2|]. destruct (G1 e (or_introl eq_refl)) as (f & h & _ & Hf). now destruct (HQ f). }
  intros a Ha. destruct (step out on_demand families a s') as [s2 r2] eqn:E2. cbn [fst].
  destruct Ha as [(f & ->) | [-> | [-> | [-> | (b & ->)]]]].
  - unfold step in E2. rewrite sv_started in E2. change (s_started (log (Call (AUnban f)) s')) with (s_started s') in E2.
    rewrite (Flags_2 _ _ f (proj2 HI')), Hempty in E2. cbn in E2. now injection E2 as <- <-.
  - apply (flush_all out on_demand families c) in E2; auto. eapply Hnil; [|exact E2]. intros f Hf. cbn in Hf. rewrite Hempty in Hf. discriminate Hf.
  - apply (reload_all out on_demand families c) in E2; auto. eapply Hnil; [|exact E2]. intros f Hf. cbn in Hf. rewrite Hdown in Hf. discriminate Hf.
  - apply (stop_all out on_demand families c) in E2; auto. eapply Hnil; [|exact E2]. intros f Hf. cbn in Hf. rewrite Hdown in Hf. discriminate Hf.
  - apply (check_step out on_demand families c) in E2; auto. destruct E2 as (_ & _ & _ & new2 & T2 & G1 & _). destruct new2 as [|e n]; [exact T2|].
    destruct (G1 e (or_introl eq_refl)) as (_ & f & Hf & _). rewrite Hdown in Hf. discriminate Hf.
Qed.

(** A start sets up every family at once, unless that is left to the first ban; a reload works through the families that are up. *)
Theorem C43_start s' r : step out on_demand families AStart s = (s', r) ->
  exists new, s_trace s' = new ++ Call AStart :: past
    /\ (forall e, In e new -> exists f h, e = Did KStart f h /\ on_demand = false /\ In f families)
    /\ (on_demand = false -> forall f, In f families -> exists h, In (Did KStart f h) new)
    /\ r = (if all_good new then Done else Raised)
    /\ (on_demand = false -> r = Done -> forall f, In f families -> up f (s_trace s') = true).
Proof.
  intros E. pose proof s_inv as HI. apply (start_all out on_demand families c) in E; auto. destruct E as (HI' & _ & _ & new & T & H1 & H2 & H3).
  exists new. split; [exact T|]. split; [exact H1|]. split; [intros Ho f Hf; now apply H2|]. split; [exact H3|].
  intros Ho Hr f Hf. destruct (H2 f (conj Ho Hf)) as (h & Hh). rewrite T.
  assert (Hg : all_good new = true) by (unfold all_good; destruct (forallb _ new); congruence). unfold all_good in Hg. rewrite forallb_forall in Hg.
  clear T H2 H3 Hr. induction new as [|e n IHn]; [destruct Hh|]. destruct (H1 e (or_introl eq_refl)) as (g & h' & -> & Hg').
  cbn. destruct (eqb_spec g f) as [->|N].
  - pose proof (Hg _ (or_introl eq_refl)) as Hx. cbn in Hx. now rewrite Hx.
  - destruct Hh as [E0|Hh]; [congruence|]. apply IHn; auto; intros x Hx; [apply H1|apply Hg]; now right.
Qed.
Theorem C43_reload s' r : step out on_demand families AReload s = (s', r) ->
  exists new, s_trace s' = new ++ Call AReload :: past
    /\ (forall e, In e new -> exists f h, e = Did KReload f h /\ up f past = true)
    /\ (forall f, up f past = true -> exists h, In (Did KReload f h) new)
    /\ r = (if all_good new then Done else Raised).
Proof. intros E. pose proof s_inv as HI. apply (reload_all out on_demand families c) in E; auto. destruct E as (HI' & _ & _ & new & T & H1 & H2 & H3). eauto. Qed.

(** A consistency check looks at every family that is up and at no other, and reports exactly if it had to give one up. *)
Theorem C43_check b s' r : step out on_demand families (ACheck b) s = (s', r) ->
  exists new, s_trace s' = new ++ Call (ACheck b) :: past
    /\ (forall e, In e new -> c_check (s_cfg s) = true /\ exists f, up f past = true
          /\ (e = GaveUp f \/ exists k h, e = Did k f h /\ In k [KCheck; KStop; KStart; KRepair]))
    /\ (r = Done -> forall f, up f past = true -> up f (s_trace s') = true)
    /\ (r = Broken -> exists f, up f past = true /\ up f (s_trace s') = false)
    /\ (r <> Raised -> c_check (s_cfg s) = true -> forall f cmd, up f past = true -> c_cmd (s_cfg s) KCheck f = Some cmd -> cmd <> ""%string ->
          (exists h, In (Did KCheck f h) new)
          (* with repair, the last word on a family is a good check, or it is given up *)
          /\ (b = true -> (exists cmd, In (Did KCheck f (Ran cmd true)) new) \/ In (GaveUp f) new)).
Proof.
  intros E. pose proof s_inv as HI. apply (check_step out on_demand families c) in E; auto. destruct E as (_ & _ & _ & new & T & H1 & H2 & H3 & H4).
  exists new. split; [exact T|]. split; [|auto]. intros e He. destruct (H1 e He) as (Hc & f & Hf & Hfe). split; [exact Hc|]. exists f. split; [exact Hf|].
  destruct Hfe as [(k & h & -> & Hk)| ->]; [|now left]. right. exists k, h. split; [reflexivity|]. cbn. destruct Hk as [-> | [-> | [-> | ->]]]; auto.
Qed.
End Histories.

Local Open Scope string_scope.
(** A firewall action with a command per family, and one whose flush is the same for both. *)
Definition demo_cmd (shared : kind -> bool) (k : kind) (f : fam) : option string :=
  let tail := if shared k then ""%string else f in
  match k with
  | KStart => Some ("chain-add "++tail)%string | KStop => Some ("chain-del "++tail)%string
  | KBan => Some ("rule-add "++tail)%string | KUnban => Some ("rule-del "++tail)%string
  | KFlush => Some ("flush "++tail)%string | KCheck => Some ("chain-list "++tail)%string
  | _ => Some ""%string
  end.
Definition demo (shared : kind -> bool) : cfg := mkCfg (demo_cmd shared) true false false.
Definition none (k : kind) : bool := false.
Definition flushes (k : kind) : bool := kind_eqb k KFlush.
Definition starts (k : kind) : bool := kind_eqb k KStart || kind_eqb k KStop.
Definition fine (n : nat) : bool := true.
(** a life: two bans of which the second finds the chain lost and has it made again, an unban, the end *)
Theorem C43_demo :
  exists tr, s_trace (run (fun n => negb (eqb n 2%nat || eqb n 3%nat)) true ["inet4"; "inet6"]%string
      [AStart; ABan "inet4"; ABan "inet4"; AUnban "inet6"; AUnban "inet4"; AStop] (init (demo none))) = tr
  /\ rev tr = [Call AStart;
      Call (ABan "inet4"); Did KStart "inet4" (Ran "chain-add inet4" true); Did KBan "inet4" (Ran "rule-add inet4" true);
      Call (ABan "inet4"); Did KBan "inet4" (Ran "rule-add inet4" false); Did KCheck "inet4" (Ran "chain-list inet4" false);
        Did KStop "inet4" (Ran "chain-del inet4" true); Did KStart "inet4" (Ran "chain-add inet4" true); Did KCheck "inet4" (Ran "chain-list inet4" true);
        Did KBan "inet4" (Ran "rule-add inet4" true);
      Call (AUnban "inet6"); Call (AUnban "inet4"); Did KUnban "inet4" (Ran "rule-del inet4" true);
      Call AStop; Did KStop "inet4" (Ran "chain-del inet4" true)]%string.
Proof. eexists. split; [reflexivity|]. vm_compute. reflexivity. Qed.

(** A flush whose command is the same for both families is skipped for the one if it ever ran for the other,
    although bans were made since: they stay in the firewall, and are not unbanned any more. *)
Theorem C43_shared_flush_refuted :
  exists l tr, rev (s_trace (run fine true ["inet4"; "inet6"]%string l (init (demo flushes)))) = tr
    /\ l = [ABan "inet4"; AFlush; ABan "inet6"; AFlush; AUnban "inet6"]%string
    /\ In (Did KFlush "inet6" (Shared "flush "))%string tr
    /\ (forall cmd ok, ~ In (Did KFlush "inet6" (Ran cmd ok))%string tr)
    /\ (forall h, ~ In (Did KUnban "inet6" h)%string tr)
    /\ skipn 5%nat tr = [Call (ABan "inet6"); Did KStart "inet6" (Ran "chain-add inet6" true); Did KBan "inet6" (Ran "rule-add inet6" true);
                     Call AFlush; Did KFlush "inet6" (Shared "flush "); Call (AUnban "inet6")]%string.
Proof.
  eexists _, _. split; [reflexivity|]. split; [reflexivity|].
  match goal with |- In _ ?t /\ _ => let v := eval vm_compute in t in change t with v end.
  split; [cbn; tauto|]. split; [|split; [|reflexivity]].
  - intros cmd ok H. cbn in H. repeat (destruct H as [H|H]; [discriminate H|]). exact H.
  - intros h H. cbn in H. repeat (destruct H as [H|H]; [discriminate H|]). exact H.
Qed.

(** Setting any parameter of a running action forgets which commands ran: the start command that both families
    share is run again while the first is up. *)
Theorem C43_set_refuted :
  exists l, l = [ABan "inet4"; ASet (demo starts); ABan "inet6"]%string
    /\ filter (fun e => match e with Did KStart _ _ => true | _ => false end) (s_trace (run fine true ["inet4"; "inet6"]%string l (init (demo starts))))
       = [Did KStart "inet6" (Ran "chain-add " true); Did KStart "inet4" (Ran "chain-add " true)]%string
    /\ filter (fun e => match e with Did KStart _ _ => true | _ => false end) (s_trace (run fine true ["inet4"; "inet6"]%string [ABan "inet4"; ABan "inet6"]%string (init (demo starts))))
       = [Did KStart "inet6" (Shared "chain-add "); Did KStart "inet4" (Ran "chain-add " true)]%string.
Proof. eexists. split; [reflexivity|]. split; vm_compute; reflexivity. Qed.

(** Not on demand, bans are made although the start failed. *)
Theorem C43_failed_start_refuted :
  exists l, l = [AStart; ABan ""]%string
    /\ rev (s_trace (run (fun n => negb (eqb n 0%nat)) false [""%string] l (init (demo none))))
       = [Call AStart; Did KStart "" (Ran "chain-add " false); Call (ABan ""); Did KBan "" (Ran "rule-add " true)]%string.
Proof. eexists. split; [reflexivity|]. vm_compute. reflexivity. Qed.

(** A consistency check that may not repair calls a family sane although its check failed. *)
Theorem C43_check_refuted :
  exists l s', s' = run (fun n => negb (eqb n 2%nat)) true ["inet4"]%string l (init (demo none)) /\ l = [ABan "inet4"]%string
    /\ snd (step (fun n => negb (eqb n 2%nat)) true ["inet4"]%string (ACheck false) s') = Done
    /\ since_call (s_trace (fst (step (fun n => negb (eqb n 2%nat)) true ["inet4"]%string (ACheck false) s'))) = [Did KCheck "inet4" (Ran "chain-list inet4" false)]%string.
Proof. eexists _, _. split; [reflexivity|]. split; [reflexivity|]. split; vm_compute; reflexivity. Qed.

Print Assumptions C43_lawful.
Print Assumptions C43_epoch.
Print Assumptions C43_ban.
Print Assumptions C43_unban.
Print Assumptions C43_prolong.
Print Assumptions C43_flush.
Print Assumptions C43_stop.
Print Assumptions C43_start.
Print Assumptions C43_reload.
Print Assumptions C43_check.
Print Assumptions C43_demo.
Print Assumptions C43_shared_flush_refuted.
Print Assumptions C43_set_refuted.
Print Assumptions C43_failed_start_refuted.
Print Assumptions C43_check_refuted.
