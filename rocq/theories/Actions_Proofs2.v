(** Proofs for actions.py, second part: queue, expiry checks, unban command, reload. *)
From Verif Require Import Base Ticket_Model BanManager_Model BanManager_Spec BanManager_Proofs
  Actions_Model Actions_Spec Actions_Proofs.

Lemma over_eob dflt now tk : now <= MAX_TIME -> overb dflt now tk = false <-> end_of_ban dflt tk >= now.
Proof.
  intros H. rewrite <- eob_over by exact H. rewrite Z.gtb_ltb, Z.ltb_ge. lia.
Qed.

Lemma inert_no_ban tr : forallb inert tr = true -> filter is_ban_call tr = [].
Proof.
  induction tr as [|c tr IH]; cbn; [reflexivity|]. intros H. apply andb_true_iff in H as [H1 H2].
  rewrite (IH H2). destruct c; cbn in *; try discriminate; reflexivity.
Qed.

Lemma ban_calls_all id names : filter is_ban_call (map (fun n => CBan n id) names) = map (fun n => CBan n id) names.
Proof. induction names as [|n names IH]; cbn; [reflexivity|]. now rewrite IH. Qed.

Lemma wants_sg dflt now l l' tks ids : sg l = sg l' -> serve_calls dflt now l tks ids = serve_calls dflt now l' tks ids.
Proof.
  intros H. revert ids. induction tks as [|tk tks IH]; intros ids; cbn; [reflexivity|]. rewrite IH. f_equal.
  destruct (wants_ban _ _ _ _); [|reflexivity]. f_equal. unfold wanting. apply sg_filter; [exact H|reflexivity].
Qed.

Lemma NoDup_app_both {A} (l1 l2 : list A) : NoDup l1 -> NoDup l2 -> (forall x, In x l1 -> ~ In x l2) -> NoDup (l1 ++ l2).
Proof.
  intros H1 H2 H. induction H1 as [|x l Hx _ IH]; cbn; [exact H2|]. constructor.
  - intros I. apply in_app_or in I as [I|I]; [contradiction|]. apply (H x); [now left|exact I].
  - apply IH. intros y Iy. apply H. now right.
Qed.

Lemma filter_none {A} (f : A -> bool) l : (forall x, In x l -> f x = false) -> filter f l = [].
Proof.
  induction l as [|x l IH]; intros H; cbn; [reflexivity|]. rewrite H by now left. apply IH. intros y I. apply H. now right.
Qed.

Section O4.
Context (orc : oracle).

(** One ticket. *)
Lemma check_ban_one_serve tk now ra s s' r : now <= MAX_TIME -> wf_bm (as_bm s) ->
  check_ban_one orc tk now ra s = (s', r) ->
  let dflt := bm_time (as_bm s) in
  let w := wants_ban dflt now (banned_ids s) tk in
  wf_bm (as_bm s') /\ banned_ids s' = serve1 dflt now (banned_ids s) tk
  /\ sg (as_actions s') = sg (as_actions s) /\ as_queue s' = as_queue s
  /\ bm_time (as_bm s') = dflt /\ (next_ok (as_bm s) -> next_ok (as_bm s'))
  /\ (exists tr, as_trace s' = as_trace s ++ tr
       /\ filter is_ban_call (map fst tr) = if w then map (fun n => CBan n (t_id tk)) (wanting (t_restored tk) (as_actions s)) else [])
  /\ match r with
     | Some (c, _) => (c <= 1)%nat /\ (w = true -> c = 1%nat)
     | None => w = false
     end.
Proof.
  intros HM W E. cbn zeta. unfold serve1. destruct (wants_ban (bm_time (as_bm s)) now (banned_ids s) tk) eqn:Ew.
  - unfold wants_ban in Ew. apply andb_true_iff in Ew as [E1 E2].
    apply negb_true_iff in E1, E2. apply over_eob in E1; [|exact HM]. apply inb_false in E2.
    destruct (fresh_ban orc s tk now ra E1 E2) as (s1 & X & NC & BI & (t & Gt & Bt & Idt & Tt & Btm) & Oth & Q & Db & Rl & SG & BT & BN).
    rewrite X in E. injection E as <- <-.
    assert (W1 : wf_bm (as_bm s1)).
    { destruct W as [Hd Hk]. split.
      - unfold dwf. change (dkeys (bm_list (as_bm s1))) with (banned_ids s1). rewrite BI. apply NoDup_snoc; auto.
      - intros k t0 G. destruct (eqb_spec k (t_id tk)) as [->|NE]; [congruence|]. rewrite Oth in G by exact NE. now apply Hk. }
    split; [exact W1|]. split; [exact BI|]. split; [exact SG|]. split; [exact Q|]. split; [exact BT|].
    split; [|split].
    + intros [N1 N2]. split; [lia|]. intros k t0 I. apply In_dget in I; [|exact (proj1 W1)].
      destruct (eqb_spec k (t_id tk)) as [->|NE].
      * rewrite Gt in I. injection I as <-. rewrite BN, BT.
        replace (end_of_ban (bm_time (as_bm s)) t) with (end_of_ban (bm_time (as_bm s)) tk); [lia|].
        unfold end_of_ban, get_bantime. now rewrite Tt, Btm.
      * rewrite Oth in I by exact NE. apply dget_In in I. specialize (N2 _ _ I). rewrite BT. lia.
    + destruct NC as (tr & T & M). exists tr. split; [exact T|]. rewrite M, filter_app, ban_calls_all.
      now destruct (t_restored tk).
    + auto.
  - assert (NF : ~ (end_of_ban (bm_time (as_bm s)) tk >= now /\ ~ is_banned (t_id tk) s)).
    { intros [H1 H2]. apply over_eob in H1; [|exact HM]. unfold wants_ban in Ew. rewrite H1 in Ew. cbn in Ew.
      apply negb_false_iff, inb_In in Ew. exact (H2 Ew). }
    destruct (check_ban_one_cases orc _ _ _ _ _ _ E) as [X|Q]; [contradiction|].
    destruct (Q W) as (W1 & K & S & Qu & Db & Rl & BT & NX & tr & T & I).
    split; [exact W1|]. split; [exact K|]. split; [exact S|]. split; [exact Qu|]. split; [exact BT|].
    split; [exact NX|]. split; [exists tr; split; [exact T | now apply inert_no_ban]|].
    destruct r as [[c ra']|]; [|reflexivity]. split; [|discriminate].
    clear -E. unfold check_ban_one in E. destruct (ban_begin orc tk now s) as [s1 ar]. destruct ar.
    + injection E as <- <- <-. lia.
    + injection E as <- <- <-. lia.
    + assert (C : forall id nm sa sb c', reban orc id nm sa = (sb, c') -> (c' <= 1)%nat).
      { intros id nm sa sb c'. unfold reban. destruct (reban_loop _ _ _ _) as [? []]; intros Y; injection Y as _ <-; lia. }
      destruct (dget (t_id tk) (bm_list (as_bm s1))) as [b|]; [|discriminate].
      destruct (t_banned b).
      * match type of E with (let '(_, _) := ?x in _) = _ => destruct x as [s2 ok] end.
        destruct ok; [|discriminate]. destruct (t_epoch b <? as_epoch s2); [|injection E as <- <- <-; lia].
        match type of E with match ?x with Some _ => _ | None => _ end = _ => destruct x end; [|discriminate].
        destruct (reban orc (t_id tk) l s2) eqn:Er. injection E as <- <- <-. eapply C; eauto.
      * destruct (reban orc (t_id tk) [] s1) eqn:Er. injection E as <- <- <-. eapply C; eauto.
    + assert (C : forall id nm sa sb c', reban orc id nm sa = (sb, c') -> (c' <= 1)%nat).
      { intros id nm sa sb c'. unfold reban. destruct (reban_loop _ _ _ _) as [? []]; intros Y; injection Y as _ <-; lia. }
      destruct (dget (t_id tk) (bm_list (as_bm s1))) as [b|]; [|discriminate].
      destruct (t_banned b).
      * match type of E with (let '(_, _) := ?x in _) = _ => destruct x as [s2 ok] end.
        destruct ok; [|discriminate]. destruct (t_epoch b <? as_epoch s2); [|injection E as <- <- <-; lia].
        match type of E with match ?x with Some _ => _ | None => _ end = _ => destruct x end; [|discriminate].
        destruct (reban orc (t_id tk) l s2) eqn:Er. injection E as <- <- <-. eapply C; eauto.
      * destruct (reban orc (t_id tk) [] s1) eqn:Er. injection E as <- <- <-. eapply C; eauto.
Qed.

(** Tickets given as a list (manual ban). *)
Lemma check_ban_list_serve now tks : now <= MAX_TIME -> forall ra cnt s s' r, wf_bm (as_bm s) ->
  check_ban_list orc tks now ra cnt s = (s', r) ->
  let dflt := bm_time (as_bm s) in
  exists k, (k <= length tks)%nat /\ (r <> None -> k = length tks)
  /\ wf_bm (as_bm s') /\ banned_ids s' = serve dflt now (firstn k tks) (banned_ids s)
  /\ sg (as_actions s') = sg (as_actions s) /\ as_queue s' = as_queue s
  /\ bm_time (as_bm s') = dflt /\ (next_ok (as_bm s) -> next_ok (as_bm s'))
  /\ (exists tr, as_trace s' = as_trace s ++ tr
       /\ filter is_ban_call (map fst tr) = serve_calls dflt now (as_actions s) (firstn k tks) (banned_ids s))
  /\ match r with Some c => (c <= cnt + k)%nat | None => True end.
Proof.
  intros HM. induction tks as [|tk tks IH]; intros ra cnt s s' r W E; cbn [check_ban_list] in E; cbn zeta.
  - injection E as <- <-. exists 0%nat. cbn. do 8 (split; [auto|]). split; [exists []; now rewrite app_nil_r | lia].
  - destruct (check_ban_one orc tk now ra s) as [s1 r1] eqn:E1.
    destruct (check_ban_one_serve _ _ _ _ _ _ HM W E1) as (W1&B1&S1&Q1&T1&N1&(tr1&TR1&M1)&R1). cbn zeta in *.
    destruct r1 as [[c ra1]|].
    + destruct (IH _ _ _ _ _ W1 E) as (k&Hk&Hr&W2&B2&S2&Q2&T2&N2&(tr2&TR2&M2)&R2). cbn zeta in *.
      exists (S k). cbn [firstn length serve fold_left serve_calls]. split; [lia|]. split; [intros X; now rewrite (Hr X)|].
      split; [exact W2|]. rewrite T1, B1 in *.
      split; [exact B2|]. split; [congruence|]. split; [congruence|]. split; [congruence|]. split; [auto|].
      split.
      * exists (tr1 ++ tr2). split; [rewrite TR2, TR1, app_assoc; reflexivity|].
        rewrite map_app, filter_app, M1, M2. f_equal. now apply wants_sg.
      * destruct r as [c2|]; [lia|exact I].
    + injection E as <- <-. exists 1%nat. cbn [firstn length serve fold_left serve_calls].
      split; [lia|]. split; [congruence|]. split; [exact W1|]. split; [exact B1|]. split; [exact S1|].
      split; [exact Q1|]. split; [exact T1|]. split; [exact N1|]. split; [|exact I].
      exists tr1. split; [exact TR1|]. now rewrite app_nil_r.
Qed.

(** Tickets taken from the queue. *)
Lemma check_ban_queue_serve now n : now <= MAX_TIME -> forall ra cnt s s' r, wf_bm (as_bm s) ->
  check_ban_queue orc n now ra cnt s = (s', r) ->
  let dflt := bm_time (as_bm s) in
  exists k, (k <= n)%nat /\ (r <> None -> k = n) /\ (r = None -> (1 <= k)%nat)
  /\ as_queue s' = skipn k (as_queue s)
  /\ wf_bm (as_bm s') /\ banned_ids s' = serve dflt now (firstn k (as_queue s)) (banned_ids s)
  /\ sg (as_actions s') = sg (as_actions s)
  /\ bm_time (as_bm s') = dflt /\ (next_ok (as_bm s) -> next_ok (as_bm s'))
  /\ (exists tr, as_trace s' = as_trace s ++ tr
       /\ filter is_ban_call (map fst tr) = serve_calls dflt now (as_actions s) (firstn k (as_queue s)) (banned_ids s))
  /\ match r with Some c => (c <= cnt + k)%nat | None => True end.
Proof.
  intros HM. induction n as [|n IH]; intros ra cnt s s' r W E; cbn [check_ban_queue] in E; cbn zeta.
  - injection E as <- <-. exists 0%nat. cbn. do 9 (split; [auto; try discriminate|]).
    split; [exists []; now rewrite app_nil_r | lia].
  - destruct (as_queue s) as [|tk q] eqn:Eq.
    + injection E as <- <-. exists (S n). rewrite firstn_nil, skipn_nil. cbn.
      do 9 (split; [auto; try discriminate|]). split; [exists []; now rewrite app_nil_r | lia].
    + destruct (check_ban_one orc tk now ra (with_queue q s)) as [s1 r1] eqn:E1.
      destruct (check_ban_one_serve tk now ra (with_queue q s) _ _ HM W E1) as (W1&B1&S1&Q1&T1&N1&(tr1&TR1&M1)&R1). cbn zeta in *.
      change (banned_ids (with_queue q s)) with (banned_ids s) in *.
      change (as_bm (with_queue q s)) with (as_bm s) in *.
      change (as_actions (with_queue q s)) with (as_actions s) in *.
      change (as_trace (with_queue q s)) with (as_trace s) in *.
      change (as_queue (with_queue q s)) with q in Q1.
      destruct r1 as [[c ra1]|].
      * destruct (IH _ _ _ _ _ W1 E) as (k&Hk&Hr&Hr'&Q2&W2&B2&S2&T2&N2&(tr2&TR2&M2)&R2). cbn zeta in *.
        exists (S k). cbn [firstn skipn serve fold_left serve_calls]. rewrite T1, B1, Q1 in *.
        split; [lia|]. split; [intros X; now rewrite (Hr X)|]. split; [lia|]. split; [exact Q2|]. split; [exact W2|].
        split; [exact B2|]. split; [congruence|]. split; [congruence|]. split; [auto|].
        split.
        -- exists (tr1 ++ tr2). split; [rewrite TR2, TR1, app_assoc; reflexivity|].
           rewrite map_app, filter_app, M1, M2. f_equal. now apply wants_sg.
        -- destruct r as [c2|]; [lia|exact I].
      * injection E as <- <-. exists 1%nat. cbn [firstn skipn serve fold_left serve_calls].
        split; [lia|]. split; [congruence|]. split; [lia|]. split; [exact Q1|]. split; [exact W1|]. split; [exact B1|].
        split; [exact S1|]. split; [exact T1|]. split; [exact N1|]. split; [|exact I].
        exists tr1. split; [exact TR1|]. now rewrite app_nil_r.
Qed.

(** ** C14: the main loop *)
Lemma check_unban_next now n s : wf_bm (as_bm s) -> next_ok (as_bm s) ->
  next_ok (as_bm (fst (check_unban orc now n s))).
Proof.
  intros W N. unfold check_unban. destruct (unban_list (as_bm s) now n) as [bm l] eqn:E. cbn [fst].
  destruct (unban_each_calls orc (dkeys (as_actions s)) l (with_bm bm s)) as (F & _). cbn zeta in F.
  destruct F as (F & _). rewrite F. cbn [as_bm with_bm].
  pose proof (next_step (as_bm s) (BUnban now n) W N I) as X. cbn in X. now rewrite E in X.
Qed.

Lemma check_unban_exact now n s : wf_bm (as_bm s) -> next_ok (as_bm s) -> now <= MAX_TIME -> (1 <= n)%nat ->
  let over := fun kv : string * ticket => overb (bm_time (as_bm s)) now (snd kv) in
  bm_list (as_bm (fst (check_unban orc now n s))) = drop_first over n (bm_list (as_bm s))
  /\ snd (check_unban orc now n s) = Nat.min n (length (filter over (bm_list (as_bm s))))
  /\ new_calls s (fst (check_unban orc now n s))
       (flat_map (fun id => map (fun a => CUnban a id) (action_names s))
                 (map fst (firstn n (filter over (bm_list (as_bm s)))))).
Proof.
  intros W N HM Hn. cbn zeta. unfold check_unban. destruct (unban_list (as_bm s) now n) as [bm l] eqn:E.
  destruct (unban_exact _ _ _ _ _ W N HM Hn E) as (L & B & _ & _). cbn zeta in *. cbn [fst snd].
  destruct (unban_each_calls orc (dkeys (as_actions s)) l (with_bm bm s)) as (F & NC). cbn zeta in *.
  destruct F as (F & _). rewrite F. cbn [as_bm with_bm]. split; [exact B|]. split.
  - rewrite L, map_length, firstn_length. reflexivity.
  - destruct NC as (tr & T & M). exists tr. split; [exact T|]. rewrite M, flat_map_ids, L, map_map.
    f_equal. apply map_ext_in. intros [k t] I. cbn.
    apply firstn_In in I. apply filter_In in I as [I _]. destruct W as [Hd Hk]. apply Hk. now apply In_dget.
Qed.

Lemma main_round_split ready now cnt s s' cnt' b lim : now <= MAX_TIME -> wf_bm (as_bm s) ->
  main_round orc ready now cnt s = (s', Some (cnt', b, lim)) ->
  (b <= 10)%nat
  /\ exists s1, (if ready then check_ban orc now s else (s, Some 0%nat)) = (s1, Some b)
     /\ match lim with
        | None => (1 <= b)%nat /\ cnt' = (cnt + b)%nat /\ (cnt' < 10)%nat /\ s' = s1
        | Some k => cnt' = 0%nat /\ (2 <= k <= 20)%nat /\ (2 * b <= k)%nat /\ s' = fst (check_unban orc now k s1)
        end.
Proof.
  intros HM W E. unfold main_round in E.
  destruct (if ready then check_ban orc now s else (s, Some 0%nat)) as [s1 [c|]] eqn:E1; [|discriminate].
  assert (Hc : (c <= 10)%nat).
  { destruct ready; [|injection E1 as _ <-; lia]. unfold check_ban in E1.
    destruct (check_ban_queue_serve now _ HM _ _ _ _ _ W E1) as (k&Hk&_&_&_&_&_&_&_&_&_&R). unfold banPrecedence in Hk. lia. }
  unfold banPrecedence, unbanMaxCount in E.
  destruct (Nat.eqb_spec c 0); cbn [orb] in E.
  - subst c. cbn in E. injection E as <- <- <- <-. split; [lia|]. exists s1. split; [reflexivity|]. repeat split; lia.
  - destruct (Nat.leb_spec 10 (cnt + c)) as [L|L].
    + injection E as <- <- <- <-. split; [lia|]. exists s1. split; [reflexivity|].
      destruct (Nat.ltb_spec 0 (c * 2)); cbn [andb]; [|lia].
      destruct (Nat.ltb_spec (c * 2) 20); cbn [andb]; repeat split; lia.
    + injection E as <- <- <- <-. split; [lia|]. exists s1. split; [reflexivity|]. repeat split; lia.
Qed.

Lemma main_round_inv ready now cnt s : now <= MAX_TIME ->
  wf_bm (as_bm s) /\ next_ok (as_bm s) ->
  wf_bm (as_bm (fst (main_round orc ready now cnt s))) /\ next_ok (as_bm (fst (main_round orc ready now cnt s))).
Proof.
  intros HM [W N]. unfold main_round.
  destruct (if ready then check_ban orc now s else (s, Some 0%nat)) as [s1 r] eqn:E1.
  assert (H1 : wf_bm (as_bm s1) /\ next_ok (as_bm s1)).
  { destruct ready; [|injection E1 as <- _; auto]. unfold check_ban in E1.
    destruct (check_ban_queue_serve now _ HM _ _ _ _ _ W E1) as (k&_&_&_&_&W1&_&_&_&N1&_). auto. }
  destruct r as [c|]; [|exact H1]. destruct H1 as [W1 N1].
  destruct (_ || _); cbn [fst]; [|auto].
  match goal with |- context [check_unban orc now ?k s1] => set (kk := k) end.
  split; [|now apply check_unban_next].
  unfold check_unban. destruct (unban_list (as_bm s1) now kk) as [bm l] eqn:E. cbn [fst].
  destruct (unban_each_calls orc (dkeys (as_actions s1)) l (with_bm bm s1)) as (F & _). cbn zeta in F.
  destruct F as (F & _). rewrite F. cbn [as_bm with_bm].
  pose proof (wf_bm_step (as_bm s1) (BUnban now kk) W1) as X. cbn in X. now rewrite E in X.
Qed.

Lemma rounds_bound rs : Forall (fun r => snd r <= MAX_TIME) rs ->
  forall cnt s s' cnt' l, wf_bm (as_bm s) /\ next_ok (as_bm s) -> rounds orc rs cnt s = Some (s', cnt', l) ->
  (cnt < 10)%nat ->
  (cnt' < 10)%nat
  /\ (forall b lim, In (b, lim) l -> (b <= 10)%nat /\ match lim with Some k => (2 <= k <= 20)%nat /\ (2 * b <= k)%nat | None => (1 <= b)%nat end)
  /\ (forall l1 mid l2, l = l1 ++ mid ++ l2 -> Forall (fun x => snd x = None) mid -> (total_bans mid < 10)%nat)
  /\ (forall mid l2, l = mid ++ l2 -> Forall (fun x => snd x = None) mid -> (cnt + total_bans mid < 10)%nat).
Proof.
  induction 1 as [|[ready now] rs HM _ IH]; intros cnt s s' cnt' l W E Hc; cbn [rounds] in E.
  - injection E as <- <- <-. split; [exact Hc|]. split; [intros b lim []|]. split.
    + intros l1 mid l2 El _. destruct l1, mid; try discriminate. cbn. lia.
    + intros mid l2 El _. destruct mid; try discriminate. cbn. lia.
  - cbn in HM. destruct (main_round orc ready now cnt s) as [s1 [[[c1 b1] lim1]|]] eqn:E1; [|discriminate].
    destruct (main_round_split _ _ _ _ _ _ _ _ HM (proj1 W) E1) as (Hb & sx & Ex & Hl).
    pose proof (main_round_inv ready now cnt s HM W) as W1. rewrite E1 in W1. cbn [fst] in W1.
    destruct (rounds orc rs c1 s1) as [[[s2 c2] l']|] eqn:E2; [|discriminate]. injection E as <- <- <-.
    assert (Hc1 : (c1 < 10)%nat) by (destruct lim1; lia).
    destruct (IH _ _ _ _ _ W1 E2 Hc1) as (A1 & A2 & A3 & A4).
    split; [exact A1|]. split; [|].
    + intros b lim [X|X]; [|now apply A2]. injection X as <- <-. split; [exact Hb|]. destruct lim1; lia.
    + assert (P : forall mid l2, (b1, lim1) :: l' = mid ++ l2 -> Forall (fun x => snd x = None) mid -> (cnt + total_bans mid < 10)%nat).
      { intros [|[b lim] mid] l2 El F; [cbn; lia|]. cbn in El. injection El as <- <- El.
        inversion F as [|? ? F1 F2]; subst. cbn in F1. subst lim1. specialize (A4 mid l2 eq_refl F2).
        cbn [total_bans fold_right fst]. fold (total_bans mid). lia. }
      split; [|exact P]. intros [|x l1] mid l2 El F.
      * cbn in El. specialize (P mid l2 El F). lia.
      * cbn in El. injection El as _ El. eapply A3; eauto.
Qed.

Lemma total_ge (mid : list (nat * option nat)) : Forall (fun x => (1 <= fst x)%nat) mid -> (length mid <= total_bans mid)%nat.
Proof.
  induction 1 as [|x mid H _ IH]; cbn; [lia|]. fold (total_bans mid). lia.
Qed.

(** ** C16: the unban command *)
Lemma emit_db (db : bool) id s : let s1 := if db && as_db s then fst (emit orc (CDbDel (Some id)) s) else s in
  frame s s1 /\ new_calls s s1 (db_calls (db && as_db s) id).
Proof.
  cbn zeta. destruct (db && as_db s); cbn.
  - split; [repeat split|]. eexists. split; [reflexivity|]. reflexivity.
  - split; [apply frame_refl | now apply new_calls_refl].
Qed.

Lemma left_with_ids s s' gone : left_with s s' gone -> banned_ids s' = without gone (banned_ids s).
Proof.
  intros (B & _). unfold banned_ids, ban_list, without, dkeys. rewrite B. clear B.
  induction (bm_list (as_bm s)) as [|[k t] l IH]; cbn [filter map fst]; [reflexivity|].
  destruct (inb k gone); cbn [negb map fst]; [exact IH|]. now rewrite IH.
Qed.

Lemma left_with_wf s s' gone : left_with s s' gone -> wf_bm (as_bm s) -> wf_bm (as_bm s').
Proof.
  intros (B & _) [Hd Hk]. split; rewrite B; [now apply dwf_filter|].
  intros k t G. rewrite dget_filter in G by exact Hd. destruct (dget k (bm_list (as_bm s))) eqn:E; [|discriminate].
  cbn in G. destruct (negb _); [|discriminate]. injection G as <-. now apply Hk.
Qed.

Lemma left_with_next s s' gone : left_with s s' gone -> next_ok (as_bm s) -> next_ok (as_bm s').
Proof.
  intros (B & T & N & _) [H1 H2]. split; [now rewrite N|]. intros k t I. rewrite B in I. apply filter_In in I as [I _].
  rewrite T, N. eauto.
Qed.

Lemma left_with_nil s s' : frame s s' -> left_with s s' [].
Proof.
  intros (F1&F2&F3&F4&F5&F6). unfold left_with. rewrite F1. split; [|repeat (split; [auto|]); exact F6].
  symmetry. clear. induction (bm_list (as_bm s)) as [|kv l IH]; [reflexivity|]. cbn in *. now rewrite IH.
Qed.

Lemma left_with_trans a b c g1 g2 : left_with a b g1 -> left_with b c g2 -> left_with a c (g1 ++ g2).
Proof.
  intros (A1&A2&A3&A4&A5&A6&A7) (B1&B2&B3&B4&B5&B6&B7). unfold left_with.
  split; [|repeat split; congruence]. rewrite B1, A1, filter_filter_and. apply filter_ext. intros [k t]. cbn [fst].
  unfold inb. now rewrite existsb_app, negb_orb.
Qed.

Lemma remove_one_spec id db ife s s' r : wf_bm (as_bm s) -> remove_one orc id db ife s = (s', r) ->
  left_with s s' (if inb id (banned_ids s) then [id] else [])
  /\ new_calls s s' (db_calls (db && as_db s) id ++ (if inb id (banned_ids s) then map (fun n => CUnban n id) (action_names s) else []))
  /\ r = (if inb id (banned_ids s) then UCount 1 else if ife then UCount 0 else UMissing [id]).
Proof.
  intros W E. unfold remove_one in E. destruct (emit_db db id s) as [F1 N1]. cbn zeta in *.
  set (s1 := if db && as_db s then _ else s) in *. clearbody s1.
  pose proof F1 as (G1&G2&G3&G4&G5&G6). unfold pop_ticket in E. rewrite G1 in E.
  assert (Hi : inb id (banned_ids s) = match dget id (bm_list (as_bm s)) with Some _ => true | None => false end).
  { apply Bool.eq_true_iff_eq. rewrite inb_In. unfold banned_ids. rewrite ban_list_In, dmem_dget. reflexivity. }
  rewrite Hi. destruct (dget id (bm_list (as_bm s))) as [t|] eqn:Gt.
  - injection E as <- <-. destruct W as [Hd Hk]. assert (Ht : t_id t = id) by now apply Hk.
    set (s2 := with_bm _ s1). unfold unban_one.
    destruct (call_all_calls orc (fun n => CUnban n (t_id t)) (dkeys (as_actions s1)) s2) as (F2 & N2 & _). cbn zeta in *.
    destruct F2 as (H1&H2&H3&H4&H5&H6). split; [|split; [|reflexivity]].
    + unfold left_with. rewrite H1, H3, H4, H5, H6. cbn. split; [|repeat split; assumption].
      rewrite ddel_filter by exact Hd. apply filter_ext. intros [k t']. cbn [fst]. unfold inb. cbn [existsb].
      now rewrite orb_false_r, eqb_sym.
    + eapply new_calls_trans; [exact N1|]. destruct N2 as (tr & T & M). exists tr. split; [exact T|]. rewrite M, Ht.
      unfold action_names. now rewrite (sg_keys _ _ G6).
  - injection E as <- <-. split; [now apply left_with_nil|]. split; [|reflexivity]. rewrite app_nil_r. exact N1.
Qed.

Lemma without_notin gone bans : (forall x, In x gone -> ~ In x bans) -> without gone bans = bans.
Proof.
  intros H. unfold without. induction bans as [|b bans IH]; cbn; [reflexivity|].
  destruct (inb b gone) eqn:E.
  - apply inb_In in E. exfalso. apply (H b E). now left.
  - cbn. rewrite IH; [reflexivity|]. intros x I1 I2. apply (H x I1). now right.
Qed.

Lemma inb_without x gone bans : inb x (without gone bans) = inb x bans && negb (inb x gone).
Proof.
  apply Bool.eq_true_iff_eq. rewrite inb_In, andb_true_iff, inb_In. unfold without. rewrite filter_In. tauto.
Qed.

(** the IDs of a subnet, all of them banned *)
Lemma remove_banned_each db ife : forall ids missed cnt s s' r, wf_bm (as_bm s) -> NoDup ids ->
  (forall i, In i ids -> inb i (banned_ids s) = true) ->
  remove_list (fun i => remove_one orc i db ife) ife ids missed cnt s = (s', r) ->
  left_with s s' ids
  /\ new_calls s s' (flat_map (fun i => db_calls (db && as_db s) i ++ map (fun n => CUnban n i) (action_names s)) ids)
  /\ r = match missed with [] => UCount (cnt + length ids) | _ => UMissing missed end.
Proof.
  induction ids as [|i ids IH]; intros missed cnt s s' r W ND HB E; cbn [remove_list] in E.
  - injection E as <- <-. split; [apply left_with_nil, frame_refl|]. split; [now apply new_calls_refl|].
    destruct missed; [|reflexivity]. cbn. f_equal. lia.
  - destruct (remove_one orc i db ife s) as [s1 r1] eqn:E1.
    destruct (remove_one_spec _ _ _ _ _ _ W E1) as (L1 & N1 & R1).
    rewrite (HB i) in * by now left. subst r1.
    inversion ND as [|? ? Hni ND']; subst.
    destruct (IH missed (cnt + 1)%nat s1 s' r (left_with_wf _ _ _ L1 W) ND') as (L2 & N2 & R2).
    + intros j Ij. rewrite (left_with_ids _ _ _ L1), inb_without, HB by now right. cbn.
      rewrite orb_false_r. apply negb_true_iff. apply eqb_neq. intros ->. contradiction.
    + exact E.
    + split; [exact (left_with_trans _ _ _ _ _ L1 L2)|]. split.
      * cbn [flat_map]. eapply new_calls_trans; [exact N1|].
        assert (Hn : action_names s1 = action_names s) by (apply sg_keys; apply L1).
        assert (Hd : as_db s1 = as_db s) by apply L1. now rewrite Hn, Hd in N2.
      * rewrite R2. destruct missed; [|reflexivity]. cbn. f_equal. lia.
Qed.

Lemma remove_single_spec sub db ife id s s' r : wf_bm (as_bm s) -> remove_single orc sub db ife id s = (s', r) ->
  left_with s s' (hits sub (banned_ids s) id)
  /\ new_calls s s' (unban_calls1 sub (db && as_db s) (action_names s) (banned_ids s) id)
  /\ r = match hits sub (banned_ids s) id with
         | [] => if ife then UCount 0 else UMissing [id]
         | h => UCount (length h)
         end.
Proof.
  intros W E. unfold remove_single in E. destruct (emit_db db id s) as [F1 N1]. cbn zeta in *.
  set (s1 := if db && as_db s then _ else s) in *. clearbody s1.
  pose proof F1 as (G1&G2&G3&G4&G5&G6). rewrite G1 in E.
  assert (Hi : inb id (banned_ids s) = match dget id (bm_list (as_bm s)) with Some _ => true | None => false end).
  { apply Bool.eq_true_iff_eq. rewrite inb_In. unfold banned_ids. rewrite ban_list_In, dmem_dget. reflexivity. }
  unfold unban_calls1, hits.
  destruct (dget id (bm_list (as_bm s))) as [t|] eqn:Gt.
  - destruct (remove_one_spec _ _ _ _ _ _ W E) as (L & N & R). rewrite Hi in *. auto.
  - destruct (sub id) as [f|] eqn:Es.
    + rewrite Hi. fold (banned_ids s) in E. change (ban_list (as_bm s)) with (banned_ids s) in E.
      destruct (filter f (banned_ids s)) as [|i ips] eqn:Ef.
      * injection E as <- <-. split; [now apply left_with_nil|]. split; [|reflexivity]. cbn. rewrite app_nil_r. exact N1.
      * assert (W1 : wf_bm (as_bm s1)) by now rewrite G1.
        assert (B1 : banned_ids s1 = banned_ids s) by (unfold banned_ids; now rewrite G1).
        destruct (remove_banned_each db ife (i :: ips) [] 0 s1 s' r W1) as (L2 & N2 & R2); [| |exact E|].
        -- rewrite <- Ef. apply NoDup_filter. exact (proj1 W).
        -- intros j Ij. rewrite B1. apply inb_In. rewrite <- Ef in Ij. now apply filter_In in Ij.
        -- split; [exact (left_with_trans _ _ _ _ _ (left_with_nil _ _ F1) L2)|]. split; [|exact R2].
           eapply new_calls_trans; [exact N1|].
           assert (Hn : action_names s1 = action_names s) by now apply sg_keys.
           rewrite Hn, G5 in N2. exact N2.
    + destruct (remove_one_spec _ _ _ _ _ _ W E) as (L & N & R). rewrite Hi in *. cbn [flat_map] in *. auto.
Qed.

Lemma remove_list_spec sub db ife : forall ids missed cnt s s' r, wf_bm (as_bm s) ->
  remove_list (remove_single orc sub db ife) ife ids missed cnt s = (s', r) ->
  left_with s s' (lifted sub ids (banned_ids s))
  /\ new_calls s s' (unban_calls sub (db && as_db s) (action_names s) ids (banned_ids s))
  /\ r = match missed ++ (if ife then [] else not_found sub ids (banned_ids s)) with
         | [] => UCount (cnt + length (lifted sub ids (banned_ids s)))
         | m => UMissing m
         end.
Proof.
  induction ids as [|i ids IH]; intros missed cnt s s' r W E; cbn [remove_list] in E.
  - injection E as <- <-. split; [apply left_with_nil, frame_refl|]. split; [now apply new_calls_refl|]. cbn.
    destruct ife; rewrite app_nil_r; destruct missed; try reflexivity; f_equal; lia.
  - destruct (remove_single orc sub db ife i s) as [s1 r1] eqn:E1.
    destruct (remove_single_spec _ _ _ _ _ _ _ W E1) as (L1 & N1 & R1).
    assert (W1 := left_with_wf _ _ _ L1 W). assert (B1 := left_with_ids _ _ _ L1).
    assert (Hn : action_names s1 = action_names s) by (apply sg_keys; apply L1).
    assert (Hd : as_db s1 = as_db s) by apply L1.
    cbn [lifted not_found unban_calls].
    set (h := hits sub (banned_ids s) i) in *.
    assert (K : forall missed1 cnt1, remove_list (remove_single orc sub db ife) ife ids missed1 cnt1 s1 = (s', r) ->
              left_with s s' (h ++ lifted sub ids (without h (banned_ids s)))
              /\ new_calls s s' (unban_calls1 sub (db && as_db s) (action_names s) (banned_ids s) i
                    ++ unban_calls sub (db && as_db s) (action_names s) ids (without h (banned_ids s)))
              /\ r = match missed1 ++ (if ife then [] else not_found sub ids (without h (banned_ids s))) with
                     | [] => UCount (cnt1 + length (lifted sub ids (without h (banned_ids s))))
                     | m => UMissing m end).
    { intros missed1 cnt1 E2. destruct (IH _ _ _ _ _ W1 E2) as (L2 & N2 & R2). rewrite B1, Hn, Hd in *.
      split; [exact (left_with_trans _ _ _ _ _ L1 L2)|]. split; [|exact R2].
      eapply new_calls_trans; eauto. }
    rewrite app_length. destruct h as [|h0 hs] eqn:Eh.
    + cbn [length app]. destruct ife; subst r1.
      * destruct (K _ _ E) as (K1 & K2 & K3). split; [exact K1|]. split; [exact K2|].
        rewrite K3. destruct (missed ++ []); [f_equal; lia|reflexivity].
      * destruct (K _ _ E) as (K1 & K2 & K3). split; [exact K1|]. split; [exact K2|].
        rewrite K3, <- app_assoc. cbn. reflexivity.
    + subst r1. destruct (K _ _ E) as (K1 & K2 & K3). split; [exact K1|]. split; [exact K2|].
      rewrite K3. cbn [app]. destruct (missed ++ _); [f_equal; lia|reflexivity].
Qed.

(** ** The lower bound on the next unban time stays right *)
Lemma next_as_step sub s o : wf_bm (as_bm s) -> next_ok (as_bm s) -> op_regular s o ->
  next_ok (as_bm (as_step orc sub s o)).
Proof.
  intros W N R. destruct o; cbn [as_step op_regular] in *.
  - exact N.
  - now apply main_round_inv.
  - unfold add_banned_ip. destruct (check_ban_list _ _ _ _ _ _) as [s1 r] eqn:E. cbn [fst].
    destruct (check_ban_list_serve now _ R _ _ _ _ _ W E) as (k&_&_&_&_&_&_&_&N1&_). auto.
  - unfold remove_banned. destruct (remove_list _ _ _ _ _ _) as [s1 r] eqn:E. cbn [fst].
    destruct (remove_list_spec _ _ _ _ _ _ _ _ _ W E) as (L & _). eapply left_with_next; eauto.
  - destruct (flush_ban orc db None s) as [s1 r] eqn:E. apply flush_ban_frame in E as (_ & _ & E3). cbn [fst]. rewrite E3.
    exact (next_step (as_bm s) BFlush W N I).
  - unfold prolong_ban. destruct (dmem _ _); [|exact N].
    match goal with |- context [call_all orc ?mk ?nm s] => destruct (call_all_calls orc mk nm s) as ((F & _) & _) end.
    rewrite F. exact N.
  - apply next_step; assumption.
  - exact (next_step (as_bm s) (BSetTime v) W N R).
  - unfold thread_end. destruct (flush_ban orc false None s) as [s1 r] eqn:E. apply flush_ban_frame in E as (E1 & _ & E3).
    assert (N1 : next_ok (as_bm s1)) by (rewrite E3; exact (next_step (as_bm s) BFlush W N I)).
    destruct r; cbn [fst]; [|exact N1]. unfold stop_actions.
    assert (G : forall names s, as_bm (stop_loop orc names s) = as_bm s).
    { induction names as [|n0 names IHn]; intros s0; cbn [stop_loop]; [reflexivity|]. rewrite IHn. cbn [as_bm with_actions].
      destruct (act_call orc n0 (CStop n0) s0) as [sx rx] eqn:Ex. apply act_call_spec in Ex as ((Fx & _) & _). exact Fx. }
    now rewrite G.
Qed.

Lemma next_as_run sub ops : forall s, wf_bm (as_bm s) -> NoDup (action_names s) -> next_ok (as_bm s) -> run_regular orc sub s ops ->
  next_ok (as_bm (as_run orc sub s ops)).
Proof.
  unfold as_run. induction ops as [|o ops IH]; intros s W ND N R; cbn in *; [exact N|].
  destruct R as [R1 R2]. destruct (wf_step orc sub s o (conj W ND)) as [W1 ND1]. apply IH; auto. now apply next_as_step.
Qed.

(** ** C15: reload *)
Lemma add_cfg cfg : NoDup (map fst cfg) -> forall s d, NoDup (action_names s) -> as_reload s = Some d ->
  (forall n a, In n (map fst cfg) -> dget n (as_actions s) = Some a -> ac_reload a = true /\ ac_clear a = true) ->
  (forall n, In n (map fst cfg) -> ~ In n (dkeys d)) ->
  let s' := fold_left (fun s c => fst (add_action (fst c) (snd c) true s)) cfg s in
  as_actions s' = as_actions s ++ filter (fun kv => negb (inb (fst kv) (action_names s))) cfg
  /\ (exists d', as_reload s' = Some d' /\ dkeys d' = dkeys d ++ filter (fun n => inb n (action_names s)) (map fst cfg))
  /\ as_bm s' = as_bm s /\ as_queue s' = as_queue s /\ as_db s' = as_db s /\ as_trace s' = as_trace s.
Proof.
  induction cfg as [|[n a] cfg IH]; intros ND s d NS ER HA HD; cbn zeta; cbn [fold_left fst snd map].
  - cbn. rewrite app_nil_r. split; [reflexivity|]. split; [exists d; rewrite app_nil_r; auto|]. auto.
  - inversion ND as [|? ? Hni ND']; subst. set (s1' := fst (add_action n a true s)). revert IH. unfold add_action in s1'. cbn [negb] in s1'. intros IH. subst s1'.
    destruct (dget n (as_actions s)) as [a0|] eqn:G.
    + destruct (HA n a0 (or_introl eq_refl) G) as [R C]. rewrite R, C, ER. cbn [fst].
      set (s1 := with_reload _ s).
      destruct (IH ND' s1 (dset n tt d) NS eq_refl) as (A1 & (d' & A2 & A3) & A4).
      * intros m b I. apply HA. now right.
      * intros m I X. rewrite dset_notin in X by (apply HD; now left). rewrite dkeys_app in X. apply in_app_or in X as [X|[<-|[]]].
        -- apply (HD m); [now right|exact X].
        -- contradiction.
      * cbn zeta in *. change (action_names s1) with (action_names s) in *. change (as_actions s1) with (as_actions s) in A1.
        assert (X : inb n (action_names s) = true) by (apply inb_In; eapply dget_key; eauto).
        cbn [filter fst]. rewrite X. cbn [negb]. split; [exact A1|]. split; [|exact A4].
        exists d'. split; [exact A2|]. rewrite A3, dset_notin by (apply HD; now left). rewrite dkeys_app, <- app_assoc. reflexivity.
    + cbn [fst]. set (s1 := with_actions _ s).
      assert (Hn : ~ In n (action_names s)) by now apply dget_None.
      assert (Ea : as_actions s1 = as_actions s ++ [(n, a)]) by (unfold s1; cbn; now apply dset_notin).
      assert (En : action_names s1 = action_names s ++ [n]) by (unfold action_names; rewrite Ea, dkeys_app; reflexivity).
      destruct (IH ND' s1 d) as (A1 & (d' & A2 & A3) & A4).
      * rewrite En. now apply NoDup_snoc.
      * exact ER.
      * intros m b I Gm. apply (HA m b); [now right|]. rewrite Ea, dget_app in Gm.
        destruct (dget m (as_actions s)); [exact Gm|]. cbn in Gm. destruct (eqb_spec m n) as [->|]; [contradiction|discriminate].
      * intros m I. apply HD. now right.
      * cbn zeta in *.
        assert (X : inb n (action_names s) = false) by now apply inb_false.
        assert (Y : forall m, In m (map fst cfg) -> inb m (action_names s1) = inb m (action_names s)).
        { intros m I. rewrite En. unfold inb. rewrite existsb_app. cbn [existsb].
          destruct (eqb_spec m n) as [->|]; [contradiction|]. now rewrite !orb_false_r. }
        cbn [filter fst]. rewrite X. cbn [negb].
        split; [|split; [|exact A4]].
        -- rewrite A1, Ea, <- app_assoc. cbn [app]. f_equal. f_equal. apply filter_ext_in. intros [m b] I. cbn [fst].
           rewrite Y; [reflexivity|]. apply in_map_iff. exists (m, b). auto.
        -- exists d'. split; [exact A2|]. rewrite A3. f_equal. apply filter_ext_in. exact Y.
Qed.

Lemma reload_loop_quiet names : quiet_reloads orc -> forall s s' ok, (forall n, In n names -> dmem n (as_actions s) = true) ->
  reload_loop orc names s = (s', ok) -> ok = true /\ frame s s' /\ new_calls s s' (map CReload names).
Proof.
  intros Q. induction names as [|n names IH]; intros s s' ok H E; cbn [reload_loop] in E.
  - injection E as <- <-. repeat split. exists []. now rewrite app_nil_r.
  - rewrite H in E by now left. destruct (act_call orc n (CReload n) s) as [s1 r] eqn:E1.
    apply act_call_spec in E1 as (F & T & R & _). rewrite R, Q in E.
    assert (H1 : forall m, In m names -> dmem m (as_actions s1) = true).
    { intros m I. apply dmem_In. destruct F as (_&_&_&_&_&F6). rewrite (sg_keys _ _ F6). apply dmem_In. apply H. now right. }
    destruct (IH _ _ _ H1 E) as (A & B & C). split; [exact A|]. split; [eapply frame_trans; eauto|].
    cbn [map]. change (CReload n :: map CReload names) with ([CReload n] ++ map CReload names).
    eapply new_calls_trans; [|exact C]. exists [(CReload n, r)]. auto.
Qed.

Lemma flush_only del s s' r : NoDup (dkeys del) -> wf_bm (as_bm s) -> quiet_checks orc ->
  flush_ban orc false (Some del) s = (s', r) ->
  r <> None /\ frame s s'
  /\ exists ftr rest, as_trace s' = as_trace s ++ ftr ++ rest
     /\ filter is_flush (map fst ftr) = map CFlush (map fst (filter (fun kv => ac_flush (snd kv)) del))
     /\ Forall (about (dkeys del)) ftr
     /\ map fst rest = flat_map (fun id => map (fun n => CUnban n id)
               (map fst (filter (fun kv => negb (in_bulk ftr (fst kv) (snd kv))) del))) (banned_ids s).
Proof.
  intros ND [Hd Hk] Q E. unfold flush_ban in E. cbn [andb] in E.
  pose proof (flush_loop_quiet orc del Q s) as QL.
  destruct (flush_loop orc del s) as [s2 [names|]] eqn:E2; [|cbn in QL; congruence].
  destruct (flush_loop_spec orc _ _ _ _ ND E2) as (ftr & T & F & -> & Hfl & Hab).
  injection E as <- <-. split; [discriminate|].
  match goal with |- context [unban_each orc ?nm ?l s2] => destruct (unban_each_calls orc nm l s2) as (F5 & rest & T5 & M5) end.
  cbn zeta in *. split; [eapply frame_trans; eauto|].
  exists ftr, rest. split; [rewrite T5, T, app_assoc; reflexivity|]. split; [exact Hfl|]. split; [exact Hab|].
  rewrite M5, flat_map_ids, map_tid_vals by assumption. reflexivity.
Qed.

Lemma sg_nil_keys l : sg l = [] -> l = [].
Proof. destruct l; [reflexivity|discriminate]. Qed.

Lemma reload_ok cfg s s' ok : quiet_reloads orc -> quiet_checks orc ->
  NoDup (action_names s) -> wf_bm (as_bm s) -> NoDup (map fst cfg) ->
  (forall n a, dget n (as_actions s) = Some a -> ac_reload a = true /\ ac_clear a = true) ->
  reload_cycle orc cfg s = (s', ok) ->
  ok = true
  /\ action_names s' = filter (fun n => inb n (map fst cfg)) (action_names s)
  /\ (forall n a, In n (action_names s') -> dget n (as_actions s) = Some a ->
        exists a', dget n (as_actions s') = Some a' /\ same_action a a')
  /\ as_bm s' = as_bm s /\ as_queue s' = as_queue s /\ as_reload s' = None
  /\ exists gone rl ftr rest,
      map fst gone = filter (fun n => negb (inb n (map fst cfg))) (action_names s)
                     ++ filter (fun n => negb (inb n (action_names s))) (map fst cfg)
      /\ as_trace s' = as_trace s ++ rl ++ ftr ++ rest
      /\ map fst rl = map CReload (filter (fun n => inb n (action_names s)) (map fst cfg))
      /\ filter is_flush (map fst ftr) = map CFlush (map fst (filter (fun kv => ac_flush (snd kv)) gone))
      /\ Forall (about (map fst gone)) ftr
      /\ map fst rest = flat_map (fun id => map (fun n => CUnban n id)
               (map fst (filter (fun kv => negb (in_bulk ftr (fst kv) (snd kv))) gone))) (banned_ids s)
            ++ map CStop (rev (map fst gone)).
Proof.
  intros QR QC NS W NC HA E. unfold reload_cycle, reload_begin in E.
  destruct (add_cfg cfg NC (with_reload (Some []) s) [] NS eq_refl) as (A1 & (d' & A2 & A3) & A4 & A5 & A6 & A7).
  { intros n a _ G. eapply HA; eauto. }
  { intros n _ []. }
  cbn zeta in *. set (s1 := fold_left _ cfg _) in *. clearbody s1.
  change (action_names (with_reload (Some []) s)) with (action_names s) in *.
  change (as_actions (with_reload (Some []) s)) with (as_actions s) in *.
  cbn [as_bm as_queue as_db as_trace with_reload dkeys map app] in A3, A4, A5, A6, A7.
  unfold reload_end in E. rewrite A2 in E.
  assert (Hmem : forall n, In n (dkeys d') -> dmem n (as_actions s1) = true).
  { intros n I. rewrite A3 in I. apply filter_In in I as [_ I]. apply inb_In in I. apply dmem_In. rewrite A1, dkeys_app.
    apply in_or_app. now left. }
  destruct (reload_loop orc (dkeys d') s1) as [s2 ok2] eqn:E2.
  destruct (reload_loop_quiet _ QR _ _ _ Hmem E2) as (-> & F2 & (rl & T2 & M2)).
  pose proof F2 as (G1&G2&G3&G4&G5&G6).
  assert (N1 : NoDup (action_names s1)).
  { unfold action_names. rewrite A1, dkeys_app. apply NoDup_app_both; [exact NS|apply dwf_filter; exact NC|].
    intros x I1 I2. apply in_map_iff in I2 as ([k b] & Ek & I2). cbn in Ek. subst k. apply filter_In in I2 as [_ I2].
    cbn in I2. apply negb_true_iff, inb_false in I2. exact (I2 I1). }
  assert (N2 : NoDup (dkeys (as_actions s2))) by (rewrite (sg_keys _ _ G6); exact N1).
  set (P := fun n : string => negb (dmem n d')) in *.
  assert (HP : forall n, P n = negb (inb n (map fst cfg) && inb n (action_names s))).
  { intros n. unfold P. f_equal. apply Bool.eq_true_iff_eq. rewrite dmem_In, A3, filter_In, andb_true_iff, !inb_In. tauto. }
  set (del := filter (fun kv : string * action => negb (dmem (fst kv) d')) (as_actions s2)) in *.
  assert (Kdel : forall (l : dict string action), dkeys (filter (fun kv => P (fst kv)) l) = filter P (dkeys l)).
  { induction l as [|[k b] l IH]; cbn [filter dkeys map fst]; [reflexivity|]. destruct (P k); cbn [map fst]; fold (dkeys l) in *; [f_equal|]; exact IH. }
  assert (Kdel' : forall (l : dict string action), dkeys (filter (fun kv => negb (P (fst kv))) l) = filter (fun n => negb (P n)) (dkeys l)).
  { induction l as [|[k b] l IH]; cbn [filter dkeys map fst]; [reflexivity|]. destruct (P k); cbn [negb map fst]; fold (dkeys l) in *; [|f_equal]; exact IH. }
  assert (Hg : dkeys del = filter (fun n => negb (inb n (map fst cfg))) (action_names s)
                     ++ filter (fun n => negb (inb n (action_names s))) (map fst cfg)).
  { change del with (filter (fun kv : string * action => P (fst kv)) (as_actions s2)). rewrite (Kdel (as_actions s2)), (sg_keys _ _ G6), A1, dkeys_app, filter_app. f_equal.
    - apply filter_ext_in. intros n I. rewrite HP. apply inb_In in I. unfold action_names in *. rewrite I. now rewrite andb_true_r.
    - unfold dkeys at 1. assert (X : map fst (filter (fun kv : string * action => negb (inb (fst kv) (action_names s))) cfg)
                           = filter (fun n => negb (inb n (action_names s))) (map fst cfg)).
      { clear. induction cfg as [|[k b] l IH]; cbn [filter map fst]; [reflexivity|].
        destruct (inb k (action_names s)); cbn [negb map fst]; [exact IH | now f_equal]. }
      rewrite X. rewrite filter_filter_and. apply filter_ext. intros n. rewrite HP. destruct (inb n (action_names s)); cbn; [reflexivity|].
      now rewrite andb_false_r. }
  assert (Hkeep : forall sl, sg sl = sg (filter (fun kv => negb (P (fst kv))) (as_actions s2)) ->
            dkeys sl = filter (fun n => inb n (map fst cfg)) (action_names s)).
  { intros sl Hs. rewrite (sg_keys _ _ Hs), Kdel', (sg_keys _ _ G6), A1, dkeys_app, filter_app.
    assert (X : filter (fun n => negb (P n)) (dkeys (filter (fun kv : string * action => negb (inb (fst kv) (action_names s))) cfg)) = []).
    { apply filter_none. intros n I. rewrite HP, negb_involutive. apply in_map_iff in I as ([k b] & Ek & I). cbn in Ek. subst k.
      apply filter_In in I as [_ I]. cbn in I. apply negb_true_iff in I. rewrite I. now rewrite andb_false_r. }
    rewrite X, app_nil_r. apply filter_ext_in. intros n I. rewrite HP, negb_involutive. apply inb_In in I.
    unfold action_names in *. rewrite I. now rewrite andb_true_r. }
  assert (Hsame : forall sl, sg sl = sg (filter (fun kv => negb (P (fst kv))) (as_actions s2)) -> NoDup (dkeys sl) ->
            forall n a, In n (dkeys sl) -> dget n (as_actions s) = Some a -> exists a', dget n sl = Some a' /\ same_action a a').
  { intros sl Hs Nsl n a I Ga.
    assert (Ga1 : dget n (as_actions s1) = Some a) by (rewrite A1, dget_app, Ga; reflexivity).
    destruct (sg_dget _ _ _ _ (eq_sym G6) Ga1) as (a2 & Ga2 & Sa).
    assert (Gf : dget n (filter (fun kv => negb (P (fst kv))) (as_actions s2)) = Some a2).
    { rewrite dget_filter by exact N2. rewrite Ga2. cbn.
      assert (In n (dkeys (filter (fun kv => negb (P (fst kv))) (as_actions s2)))) by (rewrite <- (sg_keys _ _ Hs); exact I).
      rewrite Kdel' in H. apply filter_In in H as [_ H]. now rewrite H. }
    destruct (sg_dget _ _ _ _ (eq_sym Hs) Gf) as (a' & Ga' & Sa'). exists a'. split; [exact Ga'|].
    unfold same_action in *. congruence. }
  assert (B2 : banned_ids s2 = banned_ids s) by (unfold banned_ids; rewrite G1, A4; reflexivity).
  destruct del as [|d0 dl] eqn:Edel.
  - injection E as <- <-. split; [reflexivity|].
    assert (Hs : sg (as_actions s2) = sg (filter (fun kv => negb (P (fst kv))) (as_actions s2))).
    { f_equal. change (filter (fun kv : string * action => P (fst kv)) (as_actions s2) = []) in Edel. clearbody P. clear -Edel.
      assert (forall kv, In kv (as_actions s2) -> P (fst kv) = false).
      { intros kv I. destruct (P (fst kv)) eqn:Ep; [|reflexivity]. exfalso.
        assert (In kv []) by (rewrite <- Edel; apply filter_In; auto). contradiction. }
      induction (as_actions s2) as [|kv l IH]; [reflexivity|]. cbn [filter]. rewrite (H kv) by now left. cbn [negb]. f_equal.
      apply IH.
      - cbn [filter] in Edel. rewrite (H kv) in Edel by now left. exact Edel.
      - intros kv' I. apply H. now right. }
    split; [exact (Hkeep _ Hs)|]. split; [exact (Hsame _ Hs N2)|].
    cbn [as_bm as_queue as_reload with_reload as_trace]. split; [congruence|]. split; [congruence|]. split; [reflexivity|].
    exists [], rl, [], []. split; [exact Hg|]. split; [rewrite T2, A7; cbn; now rewrite app_nil_r|].
    split; [now rewrite M2, A3|]. split; [reflexivity|]. split; [constructor|]. cbn.
    clear. induction (banned_ids s); [reflexivity|]. cbn in *. assumption.
  - rewrite <- Edel in *. clear Edel d0 dl.
    assert (Nd : NoDup (dkeys del)) by (apply dwf_filter; exact N2).
    assert (W2 : wf_bm (as_bm s2)) by now rewrite G1, A4.
    destruct (flush_ban orc false (Some del) s2) as [s3 r3] eqn:E3.
    destruct (flush_only _ _ _ _ Nd W2 QC E3) as (R3 & F3 & ftr & rest & T3 & FL3 & AB3 & M3).
    destruct r3 as [k3|]; [|congruence]. injection E as <- <-. split; [reflexivity|].
    pose proof F3 as (H1&H2&H3&H4&H5&H6).
    assert (N3 : NoDup (action_names s3)) by (unfold action_names; rewrite (sg_keys _ _ H6); exact N2).
    destruct (stop_loop_spec orc (rev (dkeys del)) s3 N3) as (S1&S2&S3&S4&(tr4 & T4 & M4)&S6&S7). cbn zeta in *.
    fold (stop_actions orc (dkeys del) s3) in *. set (s4 := stop_actions orc (dkeys del) s3) in *.
    assert (Hs : sg (as_actions s4) = sg (filter (fun kv => negb (P (fst kv))) (as_actions s2))).
    { rewrite S6. transitivity (sg (filter (fun kv : string * action => negb (inb (fst kv) (rev (dkeys del)))) (as_actions s2))).
      - now apply (sg_filter_key (fun k => negb (inb k (rev (dkeys del))))).
      - f_equal. apply filter_ext_in. intros [k b] I. cbn [fst]. f_equal. apply Bool.eq_true_iff_eq.
        rewrite inb_In, <- in_rev. change del with (filter (fun kv : string * action => P (fst kv)) (as_actions s2)). rewrite (Kdel (as_actions s2)), filter_In.
        split; [tauto|]. intros X. split; [|exact X]. apply in_map_iff. exists (k, b). auto. }
    split; [exact (Hkeep _ Hs)|]. split; [exact (Hsame _ Hs S7)|].
    cbn [as_bm as_queue as_reload with_reload as_trace]. split; [congruence|]. split; [congruence|]. split; [reflexivity|].
    exists del, rl, ftr, (rest ++ tr4). split; [exact Hg|].
    split; [rewrite T4, T3, T2, A7; now rewrite !app_assoc|]. split; [now rewrite M2, A3|].
    split; [exact FL3|]. split; [exact AB3|]. rewrite map_app, M3, M4, B2. reflexivity.
Qed.

(** ** C17: the queue over a history *)
Lemma check_ban_one_queue tk now ra s s' r : wf_bm (as_bm s) -> check_ban_one orc tk now ra s = (s', r) ->
  wf_bm (as_bm s') /\ as_queue s' = as_queue s.
Proof.
  intros W E. destruct (check_ban_one_cases orc _ _ _ _ _ _ E) as [[He Hn]|Q].
  - destruct (fresh_ban orc s tk now ra He Hn) as (s1 & X & NC & BI & (t & Gt & Bt & Idt & _) & Oth & Q & _).
    rewrite X in E. injection E as <- _. split; [|exact Q]. destruct W as [Hd Hk]. split.
    + unfold dwf. change (dkeys (bm_list (as_bm s1))) with (banned_ids s1). rewrite BI. apply NoDup_snoc; auto.
    + intros k t0 G. destruct (eqb_spec k (t_id tk)) as [->|NE]; [congruence|]. rewrite Oth in G by exact NE. now apply Hk.
  - destruct (Q W) as (W1 & _ & _ & Qu & _). auto.
Qed.

Lemma check_ban_queue_skip now n : forall ra cnt s s' r, wf_bm (as_bm s) ->
  check_ban_queue orc n now ra cnt s = (s', r) -> exists k, as_queue s' = skipn k (as_queue s).
Proof.
  induction n as [|n IH]; intros ra cnt s s' r W E; cbn [check_ban_queue] in E.
  - injection E as <- _. now exists 0%nat.
  - destruct (as_queue s) as [|tk q] eqn:Eq.
    + injection E as <- _. exists 0%nat. now rewrite Eq.
    + destruct (check_ban_one orc tk now ra (with_queue q s)) as [s1 r1] eqn:E1.
      destruct (check_ban_one_queue tk now ra (with_queue q s) _ _ W E1) as [W1 Q1].
      change (as_queue (with_queue q s)) with q in Q1.
      destruct r1 as [[c ra1]|].
      * destruct (IH _ _ _ _ _ W1 E) as (k & Hk). exists (S k). rewrite Hk, Q1. reflexivity.
      * injection E as <- _. exists 1%nat. exact Q1.
Qed.

Lemma check_ban_list_queue now tks : forall ra cnt s s' r, wf_bm (as_bm s) ->
  check_ban_list orc tks now ra cnt s = (s', r) -> as_queue s' = as_queue s.
Proof.
  induction tks as [|tk tks IH]; intros ra cnt s s' r W E; cbn [check_ban_list] in E.
  - injection E as <- _. reflexivity.
  - destruct (check_ban_one orc tk now ra s) as [s1 r1] eqn:E1.
    destruct (check_ban_one_queue tk now ra s _ _ W E1) as [W1 Q1].
    destruct r1 as [[c ra1]|].
    + rewrite (IH _ _ _ _ _ W1 E). exact Q1.
    + injection E as <- _. exact Q1.
Qed.

Lemma check_unban_queue now n s : as_queue (fst (check_unban orc now n s)) = as_queue s.
Proof.
  unfold check_unban. destruct (unban_list (as_bm s) now n) as [bm l]. cbn [fst].
  destruct (unban_each_calls orc (dkeys (as_actions s)) l (with_bm bm s)) as (F & _). cbn zeta in F.
  destruct F as (_&_&F&_). exact F.
Qed.

Lemma queue_step sub s o : wf_bm (as_bm s) ->
  exists k, as_queue (as_step orc sub s o) = skipn k (as_queue s) ++ puts [o].
Proof.
  intros W. assert (Z : forall s', as_queue s' = as_queue s -> exists k, as_queue s' = skipn k (as_queue s) ++ []).
  { intros s' H. exists 0%nat. rewrite app_nil_r. exact H. }
  destruct o; cbn [as_step puts flat_map app].
  - exists 0%nat. reflexivity.
  - unfold main_round.
    destruct (if ready then check_ban orc now s else (s, Some 0%nat)) as [s1 r] eqn:E1.
    assert (H1 : exists k, as_queue s1 = skipn k (as_queue s)).
    { destruct ready; [|injection E1 as <- _; now exists 0%nat]. eapply check_ban_queue_skip; eauto. }
    destruct H1 as [k H1]. exists k. rewrite app_nil_r.
    destruct r as [c|]; [|exact H1]. destruct (_ || _); cbn [fst]; [|exact H1]. rewrite check_unban_queue. exact H1.
  - apply Z. unfold add_banned_ip. destruct (check_ban_list _ _ _ _ _ _) as [s1 r] eqn:E. cbn [fst]. eapply check_ban_list_queue; eauto.
  - apply Z. unfold remove_banned. destruct (remove_list _ _ _ _ _ _) as [s1 r] eqn:E. cbn [fst].
    destruct (remove_list_spec _ _ _ _ _ _ _ _ _ W E) as (L & _). apply L.
  - apply Z. destruct (flush_ban orc db None s) as [s1 r] eqn:E. apply flush_ban_frame in E as (_ & E2 & _). exact E2.
  - apply Z. unfold prolong_ban. destruct (dmem _ _); [|reflexivity].
    match goal with |- context [call_all orc ?mk ?nm s] => destruct (call_all_calls orc mk nm s) as ((_ & _ & F & _) & _) end.
    exact F.
  - apply Z. reflexivity.
  - apply Z. reflexivity.
  - apply Z. unfold thread_end. destruct (flush_ban orc false None s) as [s1 r] eqn:E. apply flush_ban_frame in E as (_ & E2 & _).
    destruct r; cbn [fst]; [|exact E2]. unfold stop_actions.
    assert (G : forall names s, as_queue (stop_loop orc names s) = as_queue s).
    { induction names as [|n0 names IHn]; intros s0; cbn [stop_loop]; [reflexivity|]. rewrite IHn. cbn [as_queue with_actions].
      destruct (act_call orc n0 (CStop n0) s0) as [sx rx] eqn:Ex. apply act_call_spec in Ex as ((_ & _ & Fx & _) & _). exact Fx. }
    now rewrite G.
Qed.

Lemma queue_run_gen sub ops : forall s, wf_bm (as_bm s) /\ NoDup (action_names s) ->
  exists taken, as_queue s ++ puts ops = taken ++ as_queue (as_run orc sub s ops).
Proof.
  unfold as_run. induction ops as [|o ops IH]; intros s H; cbn [fold_left].
  - exists []. cbn. now rewrite app_nil_r.
  - destruct (queue_step sub s o (proj1 H)) as [k Hk].
    destruct (IH _ (wf_step orc sub s o H)) as [taken T].
    exists (firstn k (as_queue s) ++ taken).
    rewrite <- app_assoc, <- T, Hk. change (puts (o :: ops)) with (puts ([o] ++ ops)). unfold puts.
    rewrite flat_map_app, !app_assoc, firstn_skipn. reflexivity.
Qed.

Lemma queue_run sub s0 ops : fresh_acts s0 -> as_queue s0 = [] ->
  exists taken, puts ops = taken ++ as_queue (as_run orc sub s0 ops).
Proof.
  intros HF HQ. pose proof HF as (N & F & T). destruct (queue_run_gen sub ops s0 (conj (wf_bm_fresh _ F) N)) as [taken X].
  rewrite HQ in X. cbn in X. eauto.
Qed.
End O4.

(** ** C53: repeated bans *)
Section O5.
Context (orc : oracle).

Lemma reban_loop_spec id names : forall s s' ok, reban_loop orc id names s = (s', ok) ->
  frame s s' /\ exists k tr, (k <= length names)%nat /\ as_trace s' = as_trace s ++ tr
  /\ map fst tr = map (fun n => CReban n id) (firstn k names)
  /\ if ok then k = length names /\ Forall (fun ev => r_raise (snd ev) = false) tr
     else exists tr0 ev, tr = tr0 ++ [ev] /\ r_raise (snd ev) = true /\ Forall (fun ev => r_raise (snd ev) = false) tr0.
Proof.
  induction names as [|n names IH]; intros s s' ok E; cbn [reban_loop] in E.
  - injection E as <- <-. split; [apply frame_refl|]. exists 0%nat, []. cbn. rewrite app_nil_r. repeat split; auto.
  - destruct (act_call orc n (CReban n id) s) as [s1 r] eqn:E1. apply act_call_spec in E1 as (F & T & _ & _).
    destruct (r_raise r) eqn:Er.
    + injection E as <- <-. split; [exact F|]. exists 1%nat, [(CReban n id, r)]. cbn. split; [lia|]. split; [exact T|].
      split; [reflexivity|]. exists [], (CReban n id, r). auto.
    + destruct (IH _ _ _ E) as (F' & k & tr & Hk & T' & M & R). split; [eapply frame_trans; eauto|].
      exists (S k), ((CReban n id, r) :: tr). cbn [length map firstn]. split; [lia|].
      split; [rewrite T', T, <- app_assoc; reflexivity|]. split; [cbn; now rewrite M|].
      destruct ok.
      * destruct R as [-> R]. split; [reflexivity|]. constructor; auto.
      * destruct R as (tr0 & ev & -> & R1 & R2). exists ((CReban n id, r) :: tr0), ev. split; [reflexivity|].
        split; [exact R1|]. constructor; auto.
Qed.

Lemma reban_loop_epoch id names : forall s s' ok, reban_loop orc id names s = (s', ok) -> as_epoch s <= as_epoch s'.
Proof.
  induction names as [|n names IH]; intros s s' ok E; cbn [reban_loop] in E.
  - injection E as <- <-. lia.
  - destruct (act_call orc n (CReban n id) s) as [s1 r] eqn:E1. apply act_call_spec in E1 as (F & T & _ & P).
    destruct (r_raise r); [injection E as <- <-; exact P|]. apply IH in E. lia.
Qed.

Lemma check_loop_spec names : forall s s' ok, check_loop orc names s = (s', ok) -> quiet_checks orc ->
  ok = true /\ frame s s' /\ new_calls s s' (map CCheck names) /\ as_epoch s <= as_epoch s'.
Proof.
  intros s s' ok E Q. revert s s' ok E. induction names as [|n names IH]; intros s s' ok E; cbn [check_loop] in E.
  - injection E as <- <-. split; [reflexivity|]. split; [apply frame_refl|]. split; [now apply new_calls_refl|lia].
  - destruct (act_call orc n (CCheck n) s) as [s1 r] eqn:E1. apply act_call_spec in E1 as (F & T & Rr & P).
    assert (Er : r_raise r = false) by (rewrite Rr; apply Q). rewrite Er in E.
    destruct (IH _ _ _ E) as (O & F' & N & P'). split; [exact O|]. split; [eapply frame_trans; eauto|]. split; [|lia].
    change (map CCheck (n :: names)) with ([CCheck n] ++ map CCheck names). eapply new_calls_trans; [|exact N].
    exists [(CCheck n, r)]. auto.
Qed.

Lemma reban_acts_spec e l : (forall n a, In (n, a) l -> ac_epoch a <> None) ->
  reban_acts e l = Some (rebuilt_since e l).
Proof.
  unfold rebuilt_since. induction l as [|[n a] l IH]; intros H; [reflexivity|]. cbn [reban_acts filter map snd].
  destruct (ac_epoch a) as [x|] eqn:E; [|exfalso; eapply H; [now left|exact E]].
  rewrite IH by (intros; eapply H; right; eauto). rewrite Z.gtb_ltb. destruct (e <? x); reflexivity.
Qed.

(** What entering a ticket of a banned ID does. *)
Lemma ban_begin_known tk now s b : dget (t_id tk) (bm_list (as_bm s)) = Some b ->
  end_of_ban (bm_time (as_bm s)) tk >= now ->
  exists s1 r b1, ban_begin orc tk now s = (s1, r) /\ (r = AProlonged \/ r = AKnown)
  /\ dget (t_id tk) (bm_list (as_bm s1)) = Some b1 /\ t_banned b1 = t_banned b /\ t_epoch b1 = t_epoch b /\ t_time b1 = t_time b
  /\ t_id b1 = t_id b
  /\ (forall i, i <> t_id tk -> dget i (bm_list (as_bm s1)) = dget i (bm_list (as_bm s)))
  /\ banned_ids s1 = banned_ids s
  /\ as_actions s1 = as_actions s /\ as_epoch s1 = as_epoch s /\ as_last s1 = as_last s
  /\ as_queue s1 = as_queue s /\ as_trace s1 = as_trace s.
Proof.
  intros G He. unfold ban_begin, add_ban. change (end_of_ban (bm_time (as_bm s)) (with_isban true tk)) with (end_of_ban (bm_time (as_bm s)) tk).
  change (t_id (with_isban true tk)) with (t_id tk).
  replace (end_of_ban (bm_time (as_bm s)) tk <? now) with false by (symmetry; apply Z.ltb_ge; lia). rewrite G.
  destruct (_ >? _).
  - eexists _, AProlonged, _. split; [reflexivity|]. split; [now left|]. cbn. rewrite dget_dset_same.
    split; [reflexivity|]. repeat (split; [reflexivity|]). split.
    + intros i N. apply dget_dset_other. exact N.
    + split; [|auto]. unfold banned_ids, ban_list. cbn. apply dkeys_dset_mem. eapply dget_key; eauto.
  - eexists _, AKnown, b. split; [reflexivity|]. split; [now right|]. cbn. auto 20.
Qed.

Lemma reban_spec id names s s' c b : reban orc id names s = (s', c) ->
  dget id (bm_list (as_bm s)) = Some b ->
  let targets := match names with [] => action_names s | _ => names end in
  banned_ids s' = banned_ids s
  /\ (forall i, i <> id -> dget i (bm_list (as_bm s')) = dget i (bm_list (as_bm s)))
  /\ as_queue s' = as_queue s
  /\ exists k tr b', (k <= length targets)%nat /\ as_trace s' = as_trace s ++ tr
  /\ map fst tr = map (fun n => CReban n id) (firstn k targets)
  /\ dget id (bm_list (as_bm s')) = Some b' /\ t_time b' = t_time b /\ t_bantime b' = t_bantime b
  /\ ((c = 1%nat /\ k = length targets /\ Forall (fun ev => r_raise (snd ev) = false) tr
       /\ t_banned b' = true /\ (as_epoch s' <> 0 -> t_epoch b' = as_epoch s'))
      \/ (c = 0%nat /\ b' = b /\ exists tr0 ev, tr = tr0 ++ [ev] /\ r_raise (snd ev) = true
            /\ Forall (fun ev => r_raise (snd ev) = false) tr0)).
Proof.
  intros E G. cbn zeta. unfold reban in E.
  change (dkeys (as_actions s)) with (action_names s) in E.
  set (targets := match names with [] => action_names s | _ => names end) in *.
  destruct (reban_loop orc id targets s) as [s1 ok] eqn:E1.
  apply reban_loop_spec in E1 as ((F1 & F2 & F3 & F4 & F5 & F6) & k & tr & Hk & T & M & R).
  destruct ok; injection E as <- <-.
  - destruct R as [-> R]. destruct (mark_banned_spec id s1) as (T1 & A1 & Q1 & _ & _ & P1 & _ & L1 & _ & _ & _ & O1 & D1). cbn zeta in *.
    rewrite F1 in *. specialize (D1 b G).
    split; [exact L1|]. split; [exact O1|]. split; [congruence|].
    exists (length targets), tr. eexists. split; [lia|]. split; [congruence|]. split; [exact M|]. split; [exact D1|].
    split; [reflexivity|]. split; [reflexivity|]. left. do 4 (split; [auto; reflexivity|]). intros N.
    cbn. rewrite P1 in *. destruct (Z.eqb_spec (as_epoch s1) 0); congruence.
  - split; [unfold banned_ids; now rewrite F1|]. split; [intros; now rewrite F1|]. split; [exact F3|].
    exists k, tr, b. split; [exact Hk|]. split; [exact T|]. split; [exact M|]. split; [now rewrite F1|].
    split; [reflexivity|]. split; [reflexivity|]. right. auto.
Qed.

(** a ticket of a banned ID whose actions were rebuilt *)
Lemma known_reban tk now s s' r b :
  check_ban_one orc tk now [] s = (s', r) ->
  dget (t_id tk) (bm_list (as_bm s)) = Some b -> t_banned b = true ->
  end_of_ban (bm_time (as_bm s)) tk >= now -> t_epoch b < as_epoch s ->
  (forall n a, In (n, a) (as_actions s) -> ac_epoch a <> None) ->
  let ra := rebuilt_since (t_epoch b) (as_actions s) in
  let targets := match ra with [] => action_names s | _ => ra end in
  banned_ids s' = banned_ids s
  /\ (forall i, i <> t_id tk -> dget i (bm_list (as_bm s')) = dget i (bm_list (as_bm s)))
  /\ as_queue s' = as_queue s
  /\ exists k tr b', (k <= length targets)%nat /\ as_trace s' = as_trace s ++ tr
  /\ map fst tr = map (fun n => CReban n (t_id tk)) (firstn k targets)
  /\ dget (t_id tk) (bm_list (as_bm s')) = Some b' /\ t_time b' = t_time b
  /\ ((r = Some (1%nat, ra) /\ k = length targets /\ Forall (fun ev => r_raise (snd ev) = false) tr
       /\ t_banned b' = true /\ (as_epoch s' <> 0 -> t_epoch b' = as_epoch s'))
      \/ (r = Some (0%nat, ra) /\ t_epoch b' = t_epoch b /\ exists tr0 ev, tr = tr0 ++ [ev] /\ r_raise (snd ev) = true
            /\ Forall (fun ev => r_raise (snd ev) = false) tr0)).
Proof.
  intros E G Hb He Hep HA. cbn zeta. unfold check_ban_one in E.
  destruct (ban_begin_known tk now s b G He) as (s1 & r1 & b1 & B1 & Hr & G1 & Bb & Be & Bt & Bi & O1 & L1 & A1 & P1 & La1 & Q1 & T1).
  rewrite B1 in E.
  assert (E' : (match dget (t_id tk) (bm_list (as_bm s1)) with
      | None => (s1, None)
      | Some b =>
          if t_banned b then
            let diftm := t_time tk - t_time b in
            let check := (t_epoch b =? as_epoch s1) && (diftm >? 3)
                         && true && (now >? as_last s1 + 3) in
            let '(s, ok) := if check then check_loop orc (checkers (as_actions s1)) (with_last now s1)
                            else (s1, true) in
            if ok then
              if t_epoch b <? as_epoch s then
                match reban_acts (t_epoch b) (as_actions s) with
                | None => (s, None)
                | Some ra => let '(s, c) := reban orc (t_id tk) ra s in (s, Some (c, ra))
                end
              else (s, Some (0%nat, []))
            else (s, None)
          else let '(s, c) := reban orc (t_id tk) [] s1 in (s, Some (c, []))
      end) = (s', r)) by (destruct Hr; subst r1; exact E). clear E.
  rewrite G1, Bb, Hb in E'. cbv zeta in E'. rewrite Be, P1 in E'.
  replace (t_epoch b =? as_epoch s) with false in E' by (symmetry; apply Z.eqb_neq; lia). cbn [andb] in E'.
  rewrite P1 in E'. replace (t_epoch b <? as_epoch s) with true in E' by (symmetry; apply Z.ltb_lt; lia).
  rewrite A1, reban_acts_spec in E' by exact HA.
  destruct (reban orc (t_id tk) (rebuilt_since (t_epoch b) (as_actions s)) s1) as [s2 c] eqn:E2. injection E' as <- <-.
  pose proof (reban_spec _ _ _ _ _ _ E2 G1) as X. cbn zeta in X.
  replace (action_names s1) with (action_names s) in X by (unfold action_names; now rewrite A1).
  destruct X as (X1 & X2 & X3 & k & tr & b' & Hk & T & M & Gb & Tb & _ & R).
  split; [congruence|]. split; [intros i N; rewrite X2, O1 by exact N; reflexivity|]. split; [congruence|].
  exists k, tr, b'. split; [exact Hk|]. split; [congruence|]. split; [exact M|]. split; [exact Gb|]. split; [congruence|].
  destruct R as [(-> & R)|(-> & -> & R)]; [left|right]; auto.
Qed.

(** a ticket of a banned ID whose ban is up to date *)
Lemma known_uptodate tk now s s' r b :
  check_ban_one orc tk now [] s = (s', r) ->
  dget (t_id tk) (bm_list (as_bm s)) = Some b -> t_banned b = true ->
  end_of_ban (bm_time (as_bm s)) tk >= now -> t_epoch b = as_epoch s -> quiet_checks orc ->
  let due := (3 <? t_time tk - t_time b) && (as_last s + 3 <? now) in
  (due = false -> r = Some (0%nat, []) /\ as_trace s' = as_trace s /\ banned_ids s' = banned_ids s
     /\ as_last s' = as_last s)
  /\ (due = true -> exists cs, new_calls s s' (map CCheck (checkers (as_actions s)) ++ cs)
        /\ as_last s' = now /\ banned_ids s' = banned_ids s
        /\ (as_epoch s' = as_epoch s -> cs = [])
        /\ Forall (fun c => exists n, c = CReban n (t_id tk)) cs).
Proof.
  intros E G Hb He Hep Q. cbn zeta. unfold check_ban_one in E.
  destruct (ban_begin_known tk now s b G He) as (s1 & r1 & b1 & B1 & Hr & G1 & Bb & Be & Bt & Bi & O1 & L1 & A1 & P1 & La1 & Q1 & T1).
  rewrite B1 in E.
  assert (E' : (match dget (t_id tk) (bm_list (as_bm s1)) with
      | None => (s1, None)
      | Some b =>
          if t_banned b then
            let diftm := t_time tk - t_time b in
            let check := (t_epoch b =? as_epoch s1) && (diftm >? 3)
                         && true && (now >? as_last s1 + 3) in
            let '(s, ok) := if check then check_loop orc (checkers (as_actions s1)) (with_last now s1)
                            else (s1, true) in
            if ok then
              if t_epoch b <? as_epoch s then
                match reban_acts (t_epoch b) (as_actions s) with
                | None => (s, None)
                | Some ra => let '(s, c) := reban orc (t_id tk) ra s in (s, Some (c, ra))
                end
              else (s, Some (0%nat, []))
            else (s, None)
          else let '(s, c) := reban orc (t_id tk) [] s1 in (s, Some (c, []))
      end) = (s', r)) by (destruct Hr; subst r1; exact E). clear E.
  rewrite G1, Bb, Hb in E'. cbv zeta in E'. rewrite Be, P1, Hep, Bt, La1, A1 in E'. rewrite Z.eqb_refl in E'. cbn [andb] in E'.
  rewrite andb_true_r, !Z.gtb_ltb in E'.
  destruct ((3 <? t_time tk - t_time b) && (as_last s + 3 <? now)); split; intros D; try discriminate.
  - destruct (check_loop orc (checkers (as_actions s)) (with_last now s1)) as [s2 ok] eqn:E2.
    apply check_loop_spec in E2 as (-> & (F1 & F2 & F3 & F4 & F5 & F6) & N2 & P2); [|exact Q].
    cbn in F1, F2, F3. change (as_epoch (with_last now s1)) with (as_epoch s1) in P2.
    assert (N : new_calls s s2 (map CCheck (checkers (as_actions s)))).
    { destruct N2 as (t & X & Y). exists t. split; [rewrite X; cbn; now rewrite T1 | exact Y]. }
    destruct (as_epoch s <? as_epoch s2) eqn:El.
    + destruct (reban_acts (as_epoch s) (as_actions s2)) as [ra|] eqn:Era.
      * destruct (reban orc (t_id tk) ra s2) as [s3 c] eqn:E3. injection E' as <- <-.
        assert (G2 : dget (t_id tk) (bm_list (as_bm s2)) = Some b1) by (rewrite F1; exact G1).
        assert (La3 : as_last s3 = as_last s2 /\ as_epoch s2 <= as_epoch s3).
        { unfold reban in E3. destruct (reban_loop orc (t_id tk) _ s2) as [s4 ok] eqn:E4.
          assert (as_epoch s2 <= as_epoch s4) by (eapply reban_loop_epoch; eauto).
          apply reban_loop_spec in E4 as ((_ & L4 & _) & _).
          destruct ok; injection E3 as <- _; [|auto].
          destruct (mark_banned_spec (t_id tk) s4) as (_ & _ & _ & _ & X & Y & _). cbn zeta in *. rewrite X, Y. auto. }
        destruct La3 as [La3 Ep3].
        pose proof (reban_spec _ _ _ _ _ _ E3 G2) as X. cbn zeta in X.
        destruct X as (X1 & X2 & X3 & k & tr & b' & Hk & T & M & _).
        eexists. split; [eapply new_calls_trans; [exact N|exists tr; split; [exact T|exact M]]|].
        split; [congruence|]. split; [rewrite X1; unfold banned_ids in *; rewrite F1; exact L1|]. split; [lia|].
        rewrite Forall_map. apply Forall_forall. intros n _. now exists n.
      * injection E' as <- <-. exists []. rewrite app_nil_r. split; [exact N|]. split; [exact F2|].
        split; [unfold banned_ids in *; rewrite F1; exact L1|]. auto.
    + injection E' as <- <-. exists []. rewrite app_nil_r. split; [exact N|]. split; [exact F2|].
      split; [unfold banned_ids in *; rewrite F1; exact L1|]. auto.
  - rewrite P1, Z.ltb_irrefl in E'. injection E' as <- <-. auto.
Qed.

(** a banned ID whose first ban did not complete *)
Lemma prolong_calls t s : let s' := prolong_ban orc t s in
  frame s s' /\ new_calls s s' (if inb (t_id t) (banned_ids s)
      then map (fun n => CProlong n (t_id t))
             (map fst (filter (fun kv => negb (t_restored t && ac_norestored (snd kv)) && ac_prolong (snd kv)) (as_actions s)))
      else []).
Proof.
  cbn zeta. unfold prolong_ban.
  assert (H : dmem (t_id t) (bm_list (as_bm s)) = inb (t_id t) (banned_ids s)).
  { apply eq_true_iff_eq. rewrite inb_In. unfold banned_ids. now rewrite ban_list_In. }
  rewrite H. destruct (inb _ _).
  - match goal with |- context [call_all orc ?mk ?nm s] => destruct (call_all_calls orc mk nm s) as (F & N & _) end.
    cbn zeta in *. auto.
  - split; [apply frame_refl | now apply new_calls_refl].
Qed.
End O5.
