(** Lemmas about the ban manager model. *)
From Verif Require Import Base Ticket_Model BanManager_Model BanManager_Spec.
From Coq Require Import Permutation ZifyBool ZifyNat.

Lemma eob_over dflt now t : now <= MAX_TIME ->
  (now >? end_of_ban dflt t) = overb dflt now t.
Proof.
  intros H. unfold end_of_ban, overb, ban_end, duration_of, get_bantime.
  destruct (match t_bantime t with Some b => b | None => dflt end =? -1); lia.
Qed.

Lemma overb_over dflt now t : overb dflt now t = true <-> over dflt now t.
Proof.
  unfold overb, over. destruct (ban_end _ _); [|split; [discriminate|tauto]]. lia.
Qed.

Definition expired (dflt time : Z) (kv : string * ticket) : bool := time >? end_of_ban dflt (snd kv).

(** ** The scan *)
Lemma scan_spec dflt time maxCount old : forall l cnt nxt c n,
  unban_scan dflt time maxCount cnt old nxt l = (c, n) ->
  let lim := Nat.max 1 (maxCount - cnt) in
  let ex := filter (expired dflt time) l in
  c = firstn lim ex /\
  (if Nat.leb lim (length ex) then n = old
   else n <= nxt /\ forall k t, In (k, t) l -> expired dflt time (k, t) = false -> n <= end_of_ban dflt t).
Proof.
  induction l as [|[k t] r IH]; cbn zeta; intros cnt nxt c n E; cbn [unban_scan] in E.
  - injection E as <- <-. cbn [filter length]. rewrite firstn_nil. split; [reflexivity|].
    destruct (Nat.leb_spec (Nat.max 1 (maxCount - cnt)) 0); [lia|]. split; [lia|]. intros ? ? [].
  - cbn [filter]. destruct (expired dflt time (k, t)) eqn:Ex; unfold expired in Ex; cbn [snd] in Ex; rewrite Ex in E.
    + destruct (Nat.leb_spec maxCount (S cnt)) as [H|H].
      * injection E as <- <-. replace (Nat.max 1 (maxCount - cnt)) with 1%nat by lia.
        cbn [firstn length Nat.leb]. split; reflexivity.
      * destruct (unban_scan dflt time maxCount (S cnt) old nxt r) as [c' n'] eqn:E'.
        injection E as <- <-. specialize (IH _ _ _ _ E'). cbn zeta in IH.
        replace (Nat.max 1 (maxCount - cnt)) with (S (Nat.max 1 (maxCount - S cnt))) by lia.
        destruct IH as [-> IH]. split; [reflexivity|]. cbn [length Nat.leb].
        destruct (Nat.leb _ _); [exact IH|]. destruct IH as [I1 I2]. split; [exact I1|].
        intros k' t' [X|X] Hx; [|eapply I2; eauto]. injection X as -> ->.
        unfold expired in Hx. cbn in Hx. congruence.
    + assert (G : forall nx, unban_scan dflt time maxCount cnt old nx r = (c, n) -> nx <= end_of_ban dflt t ->
                  nx <= nxt ->
                  c = firstn (Nat.max 1 (maxCount - cnt)) (filter (expired dflt time) r) /\
                  (if Nat.leb (Nat.max 1 (maxCount - cnt)) (length (filter (expired dflt time) r)) then n = old
                   else n <= nxt /\ forall k0 t0, In (k0, t0) ((k, t) :: r) ->
                        expired dflt time (k0, t0) = false -> n <= end_of_ban dflt t0)).
      { intros nx E' Hle Hle2. specialize (IH _ _ _ _ E'). cbn zeta in IH. destruct IH as [-> IH].
        split; [reflexivity|]. destruct (Nat.leb _ _); [exact IH|]. destruct IH as [I1 I2].
        split; [lia|]. intros k' t' [X|X] Hx; [|eapply I2; eauto]. injection X as -> ->. lia. }
      destruct (Z.gtb_spec nxt (end_of_ban dflt t)) as [Hg|Hg]; eapply G; eauto; lia.
Qed.

(** ** Removal *)
Lemma remove_collected_filter (c l : dict string ticket) : dwf l ->
  (forall kv, In kv c -> In kv l) ->
  remove_collected c l = filter (fun kv => negb (dmem (fst kv) c)) l.
Proof.
  intros Hd Hin. unfold remove_collected. destruct c as [|kv0 c0] eqn:Ec.
  - symmetry. rewrite <- (filter_ext (fun _ => true)); [|reflexivity].
    induction l as [|a l IH]; cbn; [reflexivity|]. f_equal. apply IH.
    + unfold dwf in *; cbn in Hd; now inversion Hd.
    + intros ? [].
  - rewrite <- Ec. destruct (Nat.leb _ _); [|reflexivity].
    assert (G : forall (ks : list string) (d : dict string ticket), dwf d ->
            fold_left (fun d k => ddel k d) ks d
            = filter (fun kv => negb (inb (fst kv) ks)) d).
    { induction ks as [|k ks IH]; cbn; intros d Hd'.
      - induction d as [|a d IHd]; cbn; [reflexivity|]. f_equal. apply IHd.
        unfold dwf in *; cbn in Hd'. now inversion Hd'.
      - rewrite IH by now apply dwf_ddel. rewrite ddel_filter by exact Hd'.
        clear IH Hd'. induction d as [|a d IHd]; cbn; [reflexivity|].
        rewrite (eqb_sym k (fst a)).
        destruct (eqb (fst a) k); cbn; [exact IHd|].
        fold (inb (fst a) ks).
        destruct (inb (fst a) ks); cbn; [exact IHd | f_equal; exact IHd]. }
    rewrite G by exact Hd. apply filter_ext. intros kv. f_equal.
    destruct (dmem (fst kv) c) eqn:E.
    + apply inb_In. now apply dmem_In.
    + apply inb_false. intros I. apply dmem_In in I. congruence.
Qed.

Lemma drop_first_0 {A} (f : A -> bool) l : drop_first f 0 l = l.
Proof. destruct l; reflexivity. Qed.

Lemma drop_first_incl {A} (f : A -> bool) n l x : In x (drop_first f n l) -> In x l.
Proof.
  revert n. induction l as [|a l IH]; intros [|n]; cbn; auto.
  destruct (f a); [intros H; right; eauto|]. intros [H|H]; [left; auto | right; eauto].
Qed.

Lemma filter_drop_first {A} (f : A -> bool) n l :
  filter f (drop_first f n l) = skipn n (filter f l).
Proof.
  revert n. induction l as [|a l IH]; intros [|n]; cbn; auto.
  destruct (f a) eqn:E; cbn; [apply IH|]. rewrite E. apply IH.
Qed.

Lemma filter_neg_drop_first {A} (f : A -> bool) n l :
  filter (fun x => negb (f x)) (drop_first f n l) = filter (fun x => negb (f x)) l.
Proof.
  revert n. induction l as [|a l IH]; intros [|n]; cbn; auto.
  destruct (f a) eqn:E; cbn; [apply IH|]. rewrite E. cbn. f_equal. apply IH.
Qed.

Lemma drop_first_drop_first {A} (f : A -> bool) n m l :
  drop_first f m (drop_first f n l) = drop_first f (n + m) l.
Proof.
  revert n m. induction l as [|a l IH]; intros [|n] [|m]; cbn; auto.
  - now rewrite drop_first_0, Nat.add_0_r.
  - destruct (f a) eqn:E; [apply IH|]. cbn. rewrite E. f_equal. apply IH.
Qed.

Lemma remove_first (f : string * ticket -> bool) n (l : dict string ticket) : dwf l ->
  filter (fun kv => negb (dmem (fst kv) (firstn n (filter f l)))) l = drop_first f n l.
Proof.
  revert n. induction l as [|[k t] l IH]; intros n Hd; [destruct n; reflexivity|].
  assert (Hd' := Hd). unfold dwf in Hd'. cbn in Hd'. inversion Hd' as [|? ? Hni Hnd]; subst.
  destruct n as [|n].
  - cbn [firstn drop_first]. clear. induction ((k, t) :: l) as [|a m IHm]; cbn; [reflexivity|].
    now f_equal.
  - cbn [filter drop_first]. destruct (f (k, t)) eqn:E.
    + cbn [firstn fst]. unfold dmem at 1. cbn [dget]. rewrite eqb_refl. cbn [negb].
      rewrite <- (IH n Hnd). apply filter_ext_in. intros [k' t'] Hin. cbn [fst].
      unfold dmem. cbn [dget]. destruct (eqb_spec k' k) as [->|N]; [|reflexivity].
      exfalso. apply Hni. apply in_map_iff. exists (k, t'). auto.
    + assert (Hm : dmem k (firstn (S n) (filter f l)) = false).
      { destruct (dmem k _) eqn:Em; [|reflexivity]. exfalso. apply dmem_In in Em.
        apply Hni. apply in_map_iff in Em as (kv & Ek & I). apply in_map_iff. exists kv.
        split; [exact Ek|]. assert (I' : In kv (filter f l)).
        { rewrite <- (firstn_skipn (S n)). apply in_or_app. left; exact I. }
        now apply filter_In in I'. }
      cbn [fst]. rewrite Hm. cbn [negb]. f_equal. apply IH. exact Hnd.
Qed.

Lemma firstn_In {A} n (l : list A) x : In x (firstn n l) -> In x l.
Proof. intros H. rewrite <- (firstn_skipn n l). apply in_or_app; auto. Qed.

(** unBanList in closed form, when the cached next time does not suppress it *)
Lemma unban_list_spec bm time n bm' l : dwf (bm_list bm) ->
  bm_next bm <= time -> unban_list bm time n = (bm', l) ->
  let lim := Nat.max 1 n in
  let ex := expired (bm_time bm) time in
  l = map snd (firstn lim (filter ex (bm_list bm)))
  /\ bm_list bm' = drop_first ex lim (bm_list bm)
  /\ bm_time bm' = bm_time bm /\ bm_total bm' = bm_total bm
  /\ (if Nat.leb lim (length (filter ex (bm_list bm))) then bm_next bm' = bm_next bm
      else bm_next bm' <= MAX_TIME /\
           forall k t, In (k, t) (bm_list bm) -> ex (k, t) = false -> bm_next bm' <= end_of_ban (bm_time bm) t).
Proof.
  intros Hd Hn. unfold unban_list. destruct (Z.gtb_spec (bm_next bm) time) as [H|_]; [lia|].
  destruct (unban_scan (bm_time bm) time n 0 (bm_next bm) MAX_TIME (bm_list bm)) as [c nx] eqn:E.
  intros X. injection X as <- <-. cbn zeta.
  apply scan_spec in E. cbn zeta in E. rewrite Nat.sub_0_r in E. destruct E as [-> E].
  cbn [bm_list bm_time bm_total bm_next].
  split; [reflexivity|]. split; [|split; [reflexivity|split; [reflexivity|exact E]]].
  rewrite remove_collected_filter.
  - now apply remove_first.
  - exact Hd.
  - intros kv I. apply firstn_In in I. now apply filter_In in I.
Qed.

(** ** Invariant of reachable states *)
Definition wf_bm (bm : banmgr) : Prop :=
  dwf (bm_list bm) /\ forall k t, dget k (bm_list bm) = Some t -> t_id t = k.

Lemma dwf_drop_first f n (l : dict string ticket) : dwf l -> dwf (drop_first f n l).
Proof.
  intros H. rewrite <- remove_first by exact H. now apply dwf_filter.
Qed.

Lemma dget_drop_first f n (l : dict string ticket) k t : dwf l ->
  dget k (drop_first f n l) = Some t -> dget k l = Some t.
Proof.
  intros Hd H. apply dget_In in H. apply drop_first_incl in H. now apply In_dget.
Qed.

Lemma unban_list_cases bm time n bm' l : dwf (bm_list bm) -> unban_list bm time n = (bm', l) ->
  (bm' = bm /\ l = [] /\ time < bm_next bm) \/
  (bm_next bm <= time
   /\ l = map snd (firstn (Nat.max 1 n) (filter (expired (bm_time bm) time) (bm_list bm)))
   /\ bm_list bm' = drop_first (expired (bm_time bm) time) (Nat.max 1 n) (bm_list bm)
   /\ bm_time bm' = bm_time bm /\ bm_total bm' = bm_total bm).
Proof.
  intros Hd E. destruct (Z.le_gt_cases (bm_next bm) time) as [H|H].
  - right. pose proof (unban_list_spec bm time n bm' l Hd H E) as (A & B & C & D & _). auto.
  - left. unfold unban_list in E. destruct (Z.gtb_spec (bm_next bm) time); [|lia].
    injection E as <- <-. auto.
Qed.

Lemma wf_bm_dset bm id t l' : wf_bm bm -> t_id t = id -> l' = dset id t (bm_list bm) ->
  dwf l' /\ forall k t', dget k l' = Some t' -> t_id t' = k.
Proof.
  intros [H1 H2] Hi ->. split; [now apply dwf_dset|]. intros k t'. rewrite dget_dset.
  destruct (eqb_spec k id) as [->|N]; [congruence | apply H2].
Qed.

Lemma wf_bm_step bm o : wf_bm bm -> wf_bm (fst (bm_step bm o)).
Proof.
  intros Hwf. pose proof Hwf as [Hd Hk]. destruct o; cbn [bm_step].
  - unfold add_ban. destruct (_ <? now); [exact Hwf|].
    destruct (dget (t_id tk) (bm_list bm)) as [old|] eqn:E.
    + destruct (_ >? _); [|exact Hwf]. cbn. eapply wf_bm_dset; [exact Hwf| |reflexivity].
      cbn. now apply Hk.
    + cbn. eapply wf_bm_dset; [exact Hwf| |reflexivity]. reflexivity.
  - destruct (unban_list bm time maxCount) as [bm' l] eqn:E. cbn [fst].
    destruct (unban_list_cases _ _ _ _ _ Hd E) as [(->&_)|(_&_&HL&_)]; [exact Hwf|].
    unfold wf_bm. rewrite HL. split; [now apply dwf_drop_first|].
    intros k t G. apply dget_drop_first in G; auto.
  - cbn. split; [apply dwf_nil | discriminate].
  - unfold pop_ticket. destruct (dget id (bm_list bm)); [|exact Hwf]. cbn.
    split; [now apply dwf_ddel|]. cbn. intros k t'. rewrite dget_ddel by exact Hd.
    destruct (eqb k id); [discriminate | apply Hk].
  - exact Hwf.
  - destruct (dget id (bm_list bm)) as [t|] eqn:E; [|exact Hwf]. cbn.
    eapply wf_bm_dset; [exact Hwf| |reflexivity]. cbn. now apply Hk.
Qed.

Lemma wf_bm_fresh bm : fresh_bm bm -> wf_bm bm.
Proof. intros [E _]. unfold wf_bm. rewrite E. split; [apply dwf_nil|discriminate]. Qed.

Lemma wf_bm_run ops : forall bm bm' outs, wf_bm bm -> bm_run bm ops = (bm', outs) -> wf_bm bm'.
Proof.
  induction ops as [|o ops IH]; cbn; intros bm bm' outs H E.
  - injection E as <- _. exact H.
  - pose proof (wf_bm_step bm o H) as H1. destruct (bm_step bm o) as [bm1 out].
    destruct (bm_run bm1 ops) as [bm2 outs2] eqn:E2. injection E as <- _. eapply IH; eauto.
Qed.

(** ** C06: the ban list is what the results say *)
Lemma dmem_dget {V} k (d : dict string V) : dmem k d = match dget k d with Some _ => true | None => false end.
Proof. reflexivity. Qed.

Lemma existsb_first (ex : string * ticket -> bool) n l id : dwf l ->
  (forall k t, dget k l = Some t -> t_id t = k) ->
  existsb (fun t => eqb (t_id t) id) (map snd (firstn n (filter ex l)))
  = dmem id (firstn n (filter ex l)).
Proof.
  intros Hd Hk.
  assert (G : forall c : dict string ticket, (forall kv, In kv c -> In kv l) ->
     existsb (fun t => eqb (t_id t) id) (map snd c) = dmem id c).
  { induction c as [|[k t] c IH]; intros Hin; [reflexivity|]. cbn [map existsb snd].
    rewrite dmem_dget. cbn [dget].
    assert (Hi : t_id t = k) by (apply Hk; apply In_dget; [exact Hd | apply Hin; left; reflexivity]).
    rewrite Hi, (eqb_sym k id). destruct (eqb id k); [reflexivity|]. cbn. rewrite IH; [reflexivity|].
    intros kv I. apply Hin. right; exact I. }
  apply G. intros kv I. apply firstn_In in I. now apply filter_In in I.
Qed.

Lemma banned_step bm o bm' out id : wf_bm bm -> bm_step bm o = (bm', out) ->
  dmem id (bm_list bm') = banned1 id (dmem id (bm_list bm)) (o, out)
  /\ bm_total bm' = bm_total bm + (match out with RAdd AAdded => 1 | _ => 0 end).
Proof.
  intros Hwf E. pose proof Hwf as [Hd Hk].
  destruct o; cbn [bm_step] in E.
  - unfold add_ban in E. destruct (_ <? now).
    + injection E as <- <-. cbn. split; [reflexivity|lia].
    + destruct (dget (t_id tk) (bm_list bm)) as [old|] eqn:Eg.
      * destruct (_ >? _); injection E as <- <-; cbn; (split; [|lia]); [|reflexivity].
        rewrite !dmem_dget, dget_dset. destruct (eqb_spec id (t_id tk)) as [->|N]; [now rewrite Eg | reflexivity].
      * injection E as <- <-. cbn. split; [|lia]. rewrite !dmem_dget, dget_dset.
        rewrite (eqb_sym (t_id tk) id). now destruct (eqb id (t_id tk)).
  - destruct (unban_list bm time maxCount) as [bm1 l] eqn:Eu. injection E as <- <-.
    destruct (unban_list_cases _ _ _ _ _ Hd Eu) as [(->&->&_)|(_&->&HL&_&HT)]; cbn [banned1].
    + cbn. split; [reflexivity|lia].
    + split; [|lia]. rewrite existsb_first by assumption.
      rewrite HL, <- remove_first by exact Hd. rewrite !dmem_dget, dget_filter by exact Hd. cbn [fst].
      set (c := firstn (Nat.max 1 maxCount) (filter (expired (bm_time bm) time) (bm_list bm))).
      fold (dmem id c). destruct (dmem id c) eqn:Em.
      * cbn. now destruct (dget id (bm_list bm)).
      * cbn. now destruct (dget id (bm_list bm)).
  - cbn in E. injection E as <- <-. cbn. split; [reflexivity|lia].
  - unfold pop_ticket in E. destruct (dget id0 (bm_list bm)) as [t|] eqn:Eg; injection E as <- <-; cbn.
    + split; [|lia]. rewrite !dmem_dget, dget_ddel by exact Hd. rewrite (eqb_sym id0 id).
      now destruct (eqb id id0).
    + split; [|lia]. destruct (eqb_spec id0 id) as [->|N]; [|reflexivity]. now rewrite dmem_dget, Eg.
  - injection E as <- <-. cbn. split; [reflexivity|lia].
  - destruct (dget id0 (bm_list bm)) as [t|] eqn:Eg; injection E as <- <-; cbn; (split; [|lia]); [|reflexivity].
    rewrite !dmem_dget, dget_dset. destruct (eqb_spec id id0) as [->|N]; [now rewrite Eg | reflexivity].
Qed.

Lemma run_banned ops : forall bm bm' outs id, wf_bm bm -> bm_run bm ops = (bm', outs) ->
  dmem id (bm_list bm') = fold_left (banned1 id) (combine ops outs) (dmem id (bm_list bm))
  /\ bm_total bm' = bm_total bm + additions outs.
Proof.
  induction ops as [|o ops IH]; cbn; intros bm bm' outs id H E.
  - injection E as <- <-. cbn. split; [reflexivity|unfold additions; cbn; lia].
  - pose proof (wf_bm_step bm o H) as H1. destruct (bm_step bm o) as [bm1 out] eqn:E1.
    destruct (bm_run bm1 ops) as [bm2 outs2] eqn:E2. injection E as <- <-.
    destruct (banned_step bm o bm1 out id H E1) as [A B].
    destruct (IH bm1 bm2 outs2 id H1 E2) as [C D]. cbn [combine fold_left].
    rewrite <- A. split; [exact C|]. rewrite D, B. unfold additions. cbn [filter].
    destruct out as [[]| | |]; cbn [length]; lia.
Qed.

Lemma banned_reachable bm ops bm' outs : fresh_bm bm -> bm_run bm ops = (bm', outs) ->
  NoDup (ban_list bm')
  /\ (forall id, In id (ban_list bm') <-> banned_after id (combine ops outs) = true)
  /\ bm_total bm' = bm_total bm + additions outs.
Proof.
  intros Hf E. pose proof (wf_bm_fresh _ Hf) as Hw.
  pose proof (wf_bm_run ops _ _ _ Hw E) as [Hd _]. split; [exact Hd|]. split.
  - intros id. destruct (run_banned ops bm bm' outs id Hw E) as [H _].
    destruct Hf as [Hl _]. rewrite Hl in H. cbn in H. unfold banned_after. rewrite <- H.
    unfold ban_list. symmetry. apply dmem_In.
  - apply (run_banned ops bm bm' outs ""%string Hw E).
Qed.

(** answers of the calls *)
Lemma answers bm0 ops bm outs : fresh_bm bm0 -> bm_run bm0 ops = (bm, outs) ->
  (forall tk now, snd (add_ban bm tk now) = AAdded <->
       end_of_ban (bm_time bm) tk >= now /\ banned_after (t_id tk) (combine ops outs) = false)
  /\ (forall id, (exists t, snd (pop_ticket bm id) = Some t) <-> banned_after id (combine ops outs) = true).
Proof.
  intros Hf E.
  assert (Hm : forall id, dmem id (bm_list bm) = banned_after id (combine ops outs)).
  { intros id. destruct (run_banned ops bm0 bm outs id (wf_bm_fresh _ Hf) E) as [H _].
    destruct Hf as [Hl _]. rewrite Hl in H. exact H. }
  split.
  - intros tk now. rewrite <- Hm, dmem_dget. unfold add_ban.
    destruct (Z.ltb_spec (end_of_ban (bm_time bm) tk) now); cbn.
    + split; [discriminate|lia].
    + destruct (dget (t_id tk) (bm_list bm)) as [old|].
      * destruct (_ >? _); cbn; split; try discriminate; intros [_ X]; discriminate.
      * cbn. split; [intros _; split; [lia|reflexivity] | reflexivity].
  - intros id. rewrite <- Hm, dmem_dget. unfold pop_ticket.
    destruct (dget id (bm_list bm)) as [t|]; cbn; split; eauto; try discriminate.
    intros [t X]; discriminate.
Qed.

(** ** C07: soundness of the expiry check, in every state *)
Lemma scan_sound dflt time maxCount old : forall l cnt nxt c n k t,
  unban_scan dflt time maxCount cnt old nxt l = (c, n) -> In (k, t) c ->
  In (k, t) l /\ end_of_ban dflt t < time.
Proof.
  intros l cnt nxt c n k t E I. apply scan_spec in E. cbn zeta in E. destruct E as [-> _].
  apply firstn_In in I. apply filter_In in I as [I X]. unfold expired in X. cbn in X. split; [exact I|lia].
Qed.

Lemma unban_sound bm time n bm' l t : time <= MAX_TIME ->
  unban_list bm time n = (bm', l) -> In t l ->
  over (bm_time bm) time t /\ In t (dvals (bm_list bm)).
Proof.
  intros HM E I. unfold unban_list in E. destruct (_ >? _).
  - injection E as <- <-. contradiction.
  - destruct (unban_scan _ _ _ _ _ _ _) as [c nx] eqn:Es. injection E as <- <-.
    unfold dvals in I. apply in_map_iff in I as ([k t'] & Et & I). cbn in Et. subst t'.
    destruct (scan_sound _ _ _ _ _ _ _ _ _ _ _ Es I) as [A B]. split.
    + apply overb_over. rewrite <- eob_over by exact HM. lia.
    + apply in_map_iff. exists (k, t). auto.
Qed.

(** ** C08: the cached next time is a lower bound *)
Definition next_ok (bm : banmgr) : Prop :=
  bm_next bm <= MAX_TIME /\ forall k t, In (k, t) (bm_list bm) -> bm_next bm <= end_of_ban (bm_time bm) t.

Lemma eob_longer (dflt dflt' : Z) t t' :
  t_time t' = t_time t ->
  longer_or_eq (duration_of dflt t) (duration_of dflt' t') ->
  forall n, n <= MAX_TIME -> n <= end_of_ban dflt t -> n <= end_of_ban dflt' t'.
Proof.
  intros Ht HL n Hn He. unfold end_of_ban, get_bantime in *. fold (duration_of dflt t) in *.
  fold (duration_of dflt' t') in *. rewrite Ht. unfold longer_or_eq in HL.
  destruct (Z.eqb_spec (duration_of dflt' t') (-1)); [exact Hn|].
  destruct (Z.eqb_spec (duration_of dflt t) (-1)); lia.
Qed.

Lemma In_dset k v (d : dict string ticket) kv : dwf d -> In kv (dset k v d) -> kv = (k, v) \/ (In kv d /\ fst kv <> k).
Proof.
  intros Hd I. destruct kv as [k' v']. apply (In_dget k' v') in I; [|now apply dwf_dset].
  rewrite dget_dset in I. destruct (eqb_spec k' k) as [->|N].
  - left. congruence.
  - right. split; [now apply dget_In | exact N].
Qed.

Lemma next_step bm o : wf_bm bm -> next_ok bm -> no_shortening bm o -> next_ok (fst (bm_step bm o)).
Proof.
  intros Hwf [H1 H2] HS. pose proof Hwf as [Hd Hk]. destruct o; cbn [bm_step no_shortening] in *.
  - unfold add_ban. set (eob := end_of_ban (bm_time bm) tk).
    destruct (Z.ltb_spec eob now); [exact (conj H1 H2)|].
    destruct (dget (t_id tk) (bm_list bm)) as [old|] eqn:E.
    + destruct (Z.gtb_spec eob (end_of_ban (bm_time bm) old)) as [G|G]; [|exact (conj H1 H2)].
      cbn. split; [exact H1|]. cbn. intros k t I. apply In_dset in I as [I|[I _]]; [|eauto|exact Hd].
      injection I as -> ->. specialize (H2 _ _ (dget_In _ _ _ E)).
      assert (G' : bm_next bm < eob) by lia. clear G. unfold eob, end_of_ban in G'.
      unfold end_of_ban. set (b := get_bantime (bm_time bm) tk) in *.
      change (get_bantime (bm_time bm) (with_bantime (Some (prolonged_time (bm_time bm) tk old)) old))
        with (prolonged_time (bm_time bm) tk old).
      change (t_time (with_bantime (Some (prolonged_time (bm_time bm) tk old)) old)) with (t_time old).
      unfold prolonged_time. fold b.
      destruct (Z.eqb_spec b (-1)) as [P|P]; [rewrite P; cbn; exact H1|].
      destruct (Z.gtb_spec (t_time tk - t_time old) 0); [|destruct (Z.eqb_spec b (-1)); lia].
      destruct (Z.eqb_spec (b + (t_time tk - t_time old)) (-1)); lia.
    + cbn. split.
      * cbn. destruct (Z.gtb_spec (bm_next bm) eob); lia.
      * cbn. intros k t I. apply In_dset in I as [I|[I _]]; [|..|exact Hd].
        -- injection I as -> ->. change (end_of_ban (bm_time bm) (incr_bancount tk)) with eob.
           destruct (Z.gtb_spec (bm_next bm) eob); lia.
        -- specialize (H2 _ _ I). destruct (Z.gtb_spec (bm_next bm) eob); lia.
  - destruct (unban_list bm time maxCount) as [bm' l] eqn:E. cbn [fst].
    destruct (Z.le_gt_cases (bm_next bm) time) as [L|L].
    + pose proof (unban_list_spec bm time maxCount bm' l Hd L E) as (_ & B & C & _ & F). cbn zeta in *.
      unfold next_ok. rewrite B, C. destruct (Nat.leb_spec (Nat.max 1 maxCount) (length (filter (expired (bm_time bm) time) (bm_list bm)))) as [X|X].
      * rewrite F. split; [exact H1|]. intros k t I. apply drop_first_incl in I. eauto.
      * destruct F as [F1 F2]. split; [exact F1|]. intros k t I.
        assert (I0 := I). apply drop_first_incl in I0. apply (F2 k t I0).
        destruct (expired (bm_time bm) time (k, t)) eqn:Ex; [|reflexivity]. exfalso.
        assert (I' : In (k, t) (filter (expired (bm_time bm) time) (drop_first (expired (bm_time bm) time) (Nat.max 1 maxCount) (bm_list bm)))).
        { apply filter_In. auto. }
        rewrite filter_drop_first in I'. rewrite skipn_all2 in I' by lia. exact I'.
    + destruct (unban_list_cases _ _ _ _ _ Hd E) as [(->&_)|(X&_)]; [exact (conj H1 H2)|lia].
  - cbn. split; [exact H1|]. intros k t [].
  - unfold pop_ticket. destruct (dget id (bm_list bm)); [|exact (conj H1 H2)]. cbn.
    split; [exact H1|]. cbn. intros k t' I. apply In_ddel in I. eauto.
  - cbn. split; [exact H1|]. cbn. intros k t I. apply (eob_longer (bm_time bm) v t t eq_refl); [|exact H1|eauto].
    unfold duration_of, longer_or_eq in *. destruct (t_bantime t); lia.
  - destruct (dget id (bm_list bm)) as [t|] eqn:E; [|exact (conj H1 H2)]. cbn.
    split; [exact H1|]. cbn. intros k t' I. apply In_dset in I as [I|[I _]]; [|eauto|exact Hd].
    injection I as -> ->. eapply eob_longer; [| |exact H1|apply (H2 id t (dget_In _ _ _ E))].
    + reflexivity.
    + cbn. now apply HS.
Qed.

Lemma next_run ops : forall bm bm' outs, wf_bm bm -> next_ok bm -> no_shortening_run bm ops ->
  bm_run bm ops = (bm', outs) -> wf_bm bm' /\ next_ok bm'.
Proof.
  induction ops as [|o ops IH]; cbn; intros bm bm' outs H HN HS E.
  - injection E as <- _. auto.
  - pose proof (wf_bm_step bm o H) as H1. destruct HS as [HS1 HS2].
    pose proof (next_step bm o H HN HS1) as HN1.
    destruct (bm_step bm o) as [bm1 out].
    destruct (bm_run bm1 ops) as [bm2 outs2] eqn:E2. injection E as <- _. eapply IH; eauto.
Qed.

Lemma fresh_next bm : fresh_bm bm -> next_ok bm.
Proof. intros [E1 E2]. unfold next_ok. rewrite E1, E2. split; [lia|]. intros k t []. Qed.

(** The expiry check in a state with a correct lower bound. *)
Lemma unban_exact bm time n bm' l : wf_bm bm -> next_ok bm -> time <= MAX_TIME -> (1 <= n)%nat ->
  unban_list bm time n = (bm', l) ->
  let over := fun kv : string * ticket => overb (bm_time bm) time (snd kv) in
  l = map snd (firstn n (filter over (bm_list bm)))
  /\ bm_list bm' = drop_first over n (bm_list bm)
  /\ bm_time bm' = bm_time bm /\ bm_total bm' = bm_total bm.
Proof.
  intros [Hd Hk] [H1 H2] HM Hn E. cbn zeta.
  assert (Hx : forall kv, expired (bm_time bm) time kv = overb (bm_time bm) time (snd kv)).
  { intros kv. unfold expired. now apply eob_over. }
  rewrite <- (filter_ext _ _ Hx (bm_list bm)).
  assert (Hdf : forall m, drop_first (fun kv => overb (bm_time bm) time (snd kv)) m (bm_list bm)
                = drop_first (expired (bm_time bm) time) m (bm_list bm)).
  { induction (bm_list bm) as [|a r IH]; intros [|m]; cbn; auto. rewrite Hx.
    assert (Hd' : dwf r) by (unfold dwf in *; cbn in Hd; now inversion Hd).
    assert (IH' : forall m, drop_first (fun kv => overb (bm_time bm) time (snd kv)) m r
        = drop_first (expired (bm_time bm) time) m r).
    { apply IH; auto.
      - intros k t G. apply Hk. destruct a as [ka ta]. cbn. destruct (eqb_spec k ka) as [->|N]; [|exact G].
        exfalso. unfold dwf in Hd. cbn in Hd. inversion Hd. apply dget_key in G. contradiction.
      - intros k t I. apply (H2 k t). right; exact I. }
    rewrite !IH'. reflexivity. }
  rewrite Hdf.
  destruct (unban_list_cases _ _ _ _ _ Hd E) as [(->&->&L)|(L&->&HL&HT&HTot)].
  - assert (Hnone : filter (expired (bm_time bm) time) (bm_list bm) = []).
    { destruct (filter (expired (bm_time bm) time) (bm_list bm)) as [|[k t] c] eqn:Ef; [reflexivity|]. exfalso.
      assert (I : In (k, t) (filter (expired (bm_time bm) time) (bm_list bm))) by (rewrite Ef; left; reflexivity).
      apply filter_In in I as [I X]. specialize (H2 _ _ I). unfold expired in X. cbn in X. lia. }
    rewrite Hnone, firstn_nil. split; [reflexivity|]. split; [|auto].
    clear -Hnone. induction (bm_list bm) as [|a r IH]; [destruct n; reflexivity|].
    destruct n; [reflexivity|]. cbn in *. destruct (expired (bm_time bm) time a); [discriminate|].
    f_equal. now apply IH.
  - replace (Nat.max 1 n) with n in * by lia. auto.
Qed.

Lemma unban_drain k : forall bm time n bm' l, wf_bm bm -> next_ok bm -> time <= MAX_TIME -> (1 <= n)%nat ->
  unban_times k bm time n = (bm', l) ->
  let over := fun kv : string * ticket => overb (bm_time bm) time (snd kv) in
  l = map snd (firstn (k * n) (filter over (bm_list bm)))
  /\ bm_list bm' = drop_first over (k * n) (bm_list bm).
Proof.
  induction k as [|k IH]; cbn [unban_times]; intros bm time n bm' l Hw HN HM Hn E; cbn zeta.
  - injection E as <- <-. cbn. now rewrite drop_first_0.
  - destruct (unban_list bm time n) as [bm1 l1] eqn:E1.
    destruct (unban_times k bm1 time n) as [bm2 l2] eqn:E2. injection E as <- <-.
    pose proof (unban_exact bm time n bm1 l1 Hw HN HM Hn E1) as (A & B & C & _). cbn zeta in *.
    assert (Hw1 : wf_bm bm1).
    { pose proof (wf_bm_step bm (BUnban time n) Hw) as X. cbn in X. rewrite E1 in X. exact X. }
    assert (HN1 : next_ok bm1).
    { pose proof (next_step bm (BUnban time n) Hw HN I) as X. cbn in X. rewrite E1 in X. exact X. }
    destruct (IH bm1 time n bm2 l2 Hw1 HN1 HM Hn E2) as [D F]. rewrite C in *.
    rewrite B, drop_first_drop_first in F. rewrite B, filter_drop_first in D.
    split; [|cbn [Nat.mul]; exact F]. rewrite A, D, <- map_app. f_equal. cbn [Nat.mul].
    clear. generalize (k * n)%nat as m. intros m. revert n.
    generalize (filter (fun kv : string * ticket => overb (bm_time bm) time (snd kv)) (bm_list bm)) as fl.
    intros fl n. revert n. induction fl as [|a r IHr]; intros [|n]; cbn; auto.
    + now rewrite firstn_nil.
    + f_equal. apply IHr.
Qed.

(** ** C09: adding a ban for a banned ID *)
Lemma add_known bm tk now bm' r old : bounded (bm_time bm) tk ->
  dget (t_id tk) (bm_list bm) = Some old -> bounded (bm_time bm) old ->
  0 <= duration_of (bm_time bm) tk \/ duration_of (bm_time bm) tk = -1 ->
  add_ban bm tk now = (bm', r) ->
  r <> AAdded
  /\ (exists new, dget (t_id tk) (bm_list bm') = Some new
       /\ t_time new = t_time old /\ t_id new = t_id old
       /\ end_le (end_of (bm_time bm) old) (end_of (bm_time bm) new)
       /\ (r <> AExpired -> end_le (end_of (bm_time bm) tk) (end_of (bm_time bm) new))
       /\ (r <> AProlonged -> new = old)
       /\ (r = AProlonged <-> end_of_ban (bm_time bm) tk >= now /\ ~ end_le (end_of (bm_time bm) tk) (end_of (bm_time bm) old)))
  /\ (forall id, id <> t_id tk -> dget id (bm_list bm') = dget id (bm_list bm))
  /\ ban_list bm' = ban_list bm /\ bm_total bm' = bm_total bm /\ bm_time bm' = bm_time bm
  /\ bm_next bm' = bm_next bm.
Proof.
  intros Hb Eg Hbo Hpos E. unfold add_ban in E. rewrite Eg in E.
  assert (Ht : end_of_ban (bm_time bm) tk = match end_of (bm_time bm) tk with None => MAX_TIME | Some e => e end).
  { unfold end_of_ban, end_of, ban_end, get_bantime, duration_of. now destruct (_ =? -1). }
  assert (Ho : end_of_ban (bm_time bm) old = match end_of (bm_time bm) old with None => MAX_TIME | Some e => e end).
  { unfold end_of_ban, end_of, ban_end, get_bantime, duration_of. now destruct (_ =? -1). }
  unfold bounded in *.
  destruct (Z.ltb_spec (end_of_ban (bm_time bm) tk) now) as [L|L].
  - injection E as <- <-. split; [discriminate|]. split; [|auto 10].
    exists old. repeat (split; [solve [auto]|]).
    split; [destruct (end_of _ old); cbn; [lia|exact I]|]. split; [congruence|]. split; [auto|].
    split; [discriminate|]. intros [X _]. lia.
  - destruct (Z.gtb_spec (end_of_ban (bm_time bm) tk) (end_of_ban (bm_time bm) old)) as [G|G];
      injection E as <- <-.
    + split; [discriminate|]. cbn [bm_list bm_with_list bm_total bm_time bm_next]. split.
      * eexists. rewrite dget_dset_same. split; [reflexivity|]. cbn [with_bantime t_time t_id].
        split; [reflexivity|]. split; [reflexivity|].
        set (new := with_bantime _ old).
        assert (Hn : end_le (end_of (bm_time bm) tk) (end_of (bm_time bm) new)).
        { unfold end_of, ban_end.
          change (duration_of (bm_time bm) new) with (prolonged_time (bm_time bm) tk old).
          change (t_time new) with (t_time old). unfold prolonged_time.
          change (get_bantime (bm_time bm) tk) with (duration_of (bm_time bm) tk).
          destruct (Z.eqb_spec (duration_of (bm_time bm) tk) (-1)) as [P|P]; [rewrite P; exact I|].
          destruct (Z.gtb_spec (t_time tk - t_time old) 0).
          - destruct (Z.eqb_spec (duration_of (bm_time bm) tk + (t_time tk - t_time old)) (-1)); [exact I|cbn; lia].
          - destruct (Z.eqb_spec (duration_of (bm_time bm) tk) (-1)); [exact I|cbn; lia]. }
        split; [|split; [auto|split; [congruence|]]].
        -- unfold end_le in *. destruct (end_of (bm_time bm) old); destruct (end_of (bm_time bm) new);
             destruct (end_of (bm_time bm) tk); try exact I; lia.
        -- split; [intros _|reflexivity]. split; [lia|].
           unfold end_le. destruct (end_of (bm_time bm) old), (end_of (bm_time bm) tk); lia.
      * split; [intros id N; now rewrite dget_dset_other by exact N|]. split; [|auto].
        unfold ban_list. cbn. apply dkeys_dset_mem. eapply dget_key; exact Eg.
    + split; [discriminate|]. split; [|auto 10]. exists old. repeat (split; [solve [auto]|]).
      split; [destruct (end_of _ old); cbn; [lia|exact I]|]. split.
      * intros _. unfold end_le. destruct (end_of (bm_time bm) old), (end_of (bm_time bm) tk); try exact I; lia.
      * split; [auto|]. split; [discriminate|]. intros (_ & X).
        exfalso. apply X. unfold end_le. destruct (end_of (bm_time bm) old), (end_of (bm_time bm) tk); try exact I; lia.
Qed.

(** ** C10: the ordered listing *)
Lemma insert_perm key x l : Permutation (insert_by key x l) (x :: l).
Proof.
  induction l as [|y r IH]; cbn; [reflexivity|]. destruct (key x <? key y); [reflexivity|].
  rewrite IH. apply perm_swap.
Qed.

Inductive srt (key : ticket -> Z) : list ticket -> Prop :=
| srt_nil : srt key []
| srt_cons x l : (forall y, In y l -> key x <= key y) -> srt key l -> srt key (x :: l).

Lemma insert_srt key x l : srt key l -> srt key (insert_by key x l).
Proof.
  induction 1 as [|y l Hy Hs IH]; cbn; [constructor; [intros ? []|constructor]|].
  destruct (Z.ltb_spec (key x) (key y)).
  - constructor; [|constructor; auto]. intros z [->|I]; [lia|]. specialize (Hy _ I). lia.
  - constructor; [|exact IH]. intros z I. apply (Permutation_in z (insert_perm key x l)) in I.
    destruct I as [->|I]; [lia|auto].
Qed.

Lemma insert_stable key x k l : srt key l ->
  filter (fun t => key t =? k) (insert_by key x l)
  = filter (fun t => key t =? k) l ++ (if key x =? k then [x] else []).
Proof.
  induction 1 as [|y l Hy Hs IH]; cbn; [now destruct (key x =? k)|].
  destruct (Z.ltb_spec (key x) (key y)).
  - cbn. destruct (Z.eqb_spec (key x) k) as [<-|N].
    + destruct (Z.eqb_spec (key y) (key x)); [lia|].
      assert (Hn : filter (fun t => key t =? key x) l = []).
      { clear IH Hs. induction l as [|z l IHl]; cbn; [reflexivity|].
        destruct (Z.eqb_spec (key z) (key x)) as [Ez|]; [specialize (Hy z (or_introl eq_refl)); lia|].
        apply IHl. intros w I. apply Hy. right; exact I. }
      now rewrite Hn.
    + now rewrite app_nil_r.
  - cbn. destruct (key y =? k); cbn; rewrite IH; reflexivity.
Qed.

Lemma fold_insert key l : forall acc, srt key acc ->
  let r := fold_left (fun acc x => insert_by key x acc) l acc in
  srt key r /\ Permutation r (acc ++ l) /\
  forall k, filter (fun t => key t =? k) r = filter (fun t => key t =? k) acc ++ filter (fun t => key t =? k) l.
Proof.
  induction l as [|x l IH]; cbn zeta; intros acc Ha; cbn [fold_left].
  - rewrite app_nil_r. split; [exact Ha|]. split; [reflexivity|]. intros k. cbn. now rewrite app_nil_r.
  - destruct (IH (insert_by key x acc) (insert_srt key x acc Ha)) as (A & B & C). cbn zeta in *.
    split; [exact A|]. split.
    + rewrite B, insert_perm. cbn. apply Permutation_middle.
    + intros k. rewrite C, insert_stable by exact Ha. rewrite <- app_assoc. f_equal. cbn.
      now destruct (key x =? k).
Qed.

Lemma srt_sorted key l : srt key l -> sorted_by key l.
Proof.
  induction 1 as [|x l Hx Hs IH]; unfold sorted_by in *; intros i j a b Hij Ha Hb.
  - now destruct i.
  - destruct j as [|j]; [lia|]. cbn in Hb. destruct i as [|i]; cbn in Ha.
    + injection Ha as <-. apply Hx. eapply nth_error_In; eauto.
    + eapply (IH i j); eauto. lia.
Qed.

Lemma sort_by_spec key l : Permutation (sort_by key l) l /\ sorted_by key (sort_by key l) /\ stable_by key l (sort_by key l).
Proof.
  destruct (fold_insert key l [] (srt_nil key)) as (A & B & C). cbn zeta in *. unfold sort_by.
  split; [exact B|]. split; [now apply srt_sorted|]. exact C.
Qed.

Lemma drop_first_all {A} (f : A -> bool) n l : (length (filter f l) <= n)%nat ->
  drop_first f n l = filter (fun x => negb (f x)) l.
Proof.
  revert n. induction l as [|a l IH]; intros [|n] H; cbn in *; auto.
  - destruct (f a) eqn:E; cbn in H; [lia|]. cbn. f_equal. rewrite <- (IH 0%nat) by lia.
    now rewrite drop_first_0.
  - destruct (f a); cbn in *; [apply IH; lia|]. f_equal. apply IH. lia.
Qed.

Lemma contents bm0 ops bm outs :
  fresh_bm bm0 -> bm_run bm0 ops = (bm, outs) ->
  (forall tk now bm', add_ban bm tk now = (bm', AAdded) ->
      bm_list bm' = bm_list bm ++ [(t_id tk, with_bancount (t_bancount tk + 1) tk)] /\ bm_time bm' = bm_time bm)
  /\ (forall id bm' r, pop_ticket bm id = (bm', r) ->
      r = dget id (bm_list bm)
      /\ bm_list bm' = filter (fun kv => negb (eqb (fst kv) id)) (bm_list bm)
      /\ bm_time bm' = bm_time bm /\ bm_total bm' = bm_total bm)
  /\ (forall bm' l, flush_ban_list bm = (bm', l) ->
      l = map snd (bm_list bm) /\ bm_list bm' = [] /\ bm_time bm' = bm_time bm /\ bm_total bm' = bm_total bm).
Proof.
  intros Hf E. pose proof (wf_bm_run ops _ _ _ (wf_bm_fresh _ Hf) E) as [Hd Hk].
  split; [|split].
  - intros tk now bm' H. unfold add_ban in H. destruct (_ <? now); [discriminate|].
    destruct (dget (t_id tk) (bm_list bm)) eqn:Eg; [destruct (_ >? _); discriminate|].
    injection H as <-. cbn. split; [|reflexivity]. apply dset_notin.
    intros I. apply dmem_In in I. rewrite dmem_dget, Eg in I. discriminate.
  - intros id bm' r H. unfold pop_ticket in H.
    assert (F : filter (fun kv => negb (eqb (fst kv) id)) (bm_list bm) = ddel id (bm_list bm)).
    { rewrite ddel_filter by exact Hd. apply filter_ext. intros kv. now rewrite eqb_sym. }
    rewrite F. destruct (dget id (bm_list bm)) eqn:Eg; injection H as <- <-; cbn; auto.
    split; [reflexivity|]. split; [|auto]. rewrite <- F. clear F.
    assert (N : ~ In id (dkeys (bm_list bm))).
    { intros I. apply dmem_In in I. rewrite dmem_dget, Eg in I. discriminate. }
    clear -N. induction (bm_list bm) as [|[k t] l IH]; cbn in *; [reflexivity|].
    destruct (eqb_spec k id) as [->|]; cbn; [tauto|]. f_equal. tauto.
  - intros bm' l H. injection H as <- <-. cbn. auto.
Qed.
