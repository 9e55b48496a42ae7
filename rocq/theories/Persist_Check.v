(** A decision procedure for [careful], for the examples. *)
From Verif Require Import Base Ticket_Model BanManager_Model Actions_Model Actions_Spec Persist_Model Persist_Spec.
From Verif Require Database_Model.
Require Import ZifyBool ZifyNat.

Definition properb (b : Z) : bool := (b =? -1) || (0 <? b).
Definition no_longerb e st tk : bool :=
  match dget (t_id tk) (bm_list (as_bm (p_acts st))) with
  | Some old => end_of_ban (dflt_of e) tk <=? end_of_ban (dflt_of e) old
  | None => true
  end.
Definition no_waitb st id : bool := forallb (fun t => negb (t_restored t && eqb (t_id t) id)) (as_queue (p_acts st)).
Definition settledb st id : bool := negb (inb id (map pend_id (p_pend st))) && no_waitb st id.
Definition fineb (e : penv) (st : pstate) (o : p_op) : bool :=
  match o with
  | PPut tk => negb (t_restored tk) && properb (get_bantime (dflt_of e) tk)
  | PTake _ _ => match as_queue (p_acts st) with [] => true | tk :: _ => no_longerb e st tk end
  | PBan id now _ => no_longerb e st (command_ticket id now) && no_waitb st id
  | PExpire _ _ | PRestart _ => true
  | PUnban ids _ => forallb (settledb st) (ids ++ lifted (e_sub e) ids (banned_ids (p_acts st)))
  | PFlush => match p_pend st with [] => forallb (fun t => negb (t_restored t)) (as_queue (p_acts st)) | _ => false end
  | PObserve _ inc =>
      match p_pend st, inc with
      | PLive _ _ :: _, Some (b, again) => properb b && negb again
      | PDead _ _ :: _, Some _ => false
      | _, _ => true
      end
  | PDb (Database_Model.DAddJail j) | PDb (Database_Model.DDelJail j) | PDb (Database_Model.DDelBan j _) => negb (eqb j (e_jail e))
  | PDb (Database_Model.DAddBan j bt t) => negb (eqb j (e_jail e)) && properb (get_bantime bt t)
  | PDb Database_Model.DStart => false
  | PDb _ => true
  end.
Fixpoint carefulb (e : penv) (c : Z) (st : pstate) (ops : list p_op) : bool :=
  match ops with
  | [] => true
  | o :: r => (c <=? tick c o) && (tick c o <=? MAX_TIME) && fineb e st o && carefulb e (tick c o) (p_step e st o) r
  end.

Lemma properb_ok b : properb b = true -> proper b.
Proof. unfold properb, proper. lia. Qed.
Lemma no_longerb_ok e st tk : no_longerb e st tk = true -> no_longer e st tk.
Proof. unfold no_longerb, no_longer. intros H old E. rewrite E in H. lia. Qed.
Lemma no_waitb_ok st id : no_waitb st id = true -> forall t, ~ waits st id t.
Proof.
  unfold no_waitb. intros H t (A & B & C). rewrite forallb_forall in H. specialize (H t A). rewrite B, C, eqb_refl in H. discriminate.
Qed.
Lemma settledb_ok st id : settledb st id = true -> settled st id.
Proof.
  unfold settledb. intros H. apply andb_true_iff in H as [H1 H2]. split; [|now apply no_waitb_ok].
  apply negb_true_iff in H1. now apply inb_false in H1.
Qed.
Lemma jail_ne a b : negb (eqb a b) = true -> a <> b :> string.
Proof. intros H ->. rewrite eqb_refl in H. discriminate. Qed.
Lemma fineb_ok e st o : fineb e st o = true -> fine e st o.
Proof.
  destruct o as [tk|now ra|id now ra|now n|ids ie| |now inc|o|now]; cbn [fineb fine]; intros H; try exact I.
  - apply andb_true_iff in H as [H1 H2]. split; [now destruct (t_restored tk)|now apply properb_ok].
  - destruct (as_queue (p_acts st)); [exact I|now apply no_longerb_ok].
  - apply andb_true_iff in H as [H1 H2]. split; [now apply no_longerb_ok|now apply no_waitb_ok].
  - rewrite forallb_forall in H. intros id I0. apply settledb_ok, H, in_or_app, I0.
  - destruct (p_pend st) eqn:E; [|discriminate]. intros id. split; [unfold unstored; now rewrite E|].
    intros t (A & B & _). rewrite forallb_forall in H. specialize (H t A). now rewrite B in H.
  - destruct (p_pend st) as [|[? ?|? ?] r]; destruct inc as [[b []]|]; auto; try discriminate; try (apply andb_true_iff in H as [H1 H2]; discriminate).
    apply andb_true_iff in H as [H1 _]. split; [now apply properb_ok|reflexivity].
  - destruct o; cbn [elsewhere]; try exact I; try discriminate; try (now apply jail_ne).
    apply andb_true_iff in H as [H1 H2]. split; [now apply jail_ne|now apply properb_ok].
Qed.
Lemma carefulb_ok e ops : forall c st, carefulb e c st ops = true -> careful e c st ops.
Proof.
  induction ops as [|o ops IH]; intros c st H; [exact I|]. cbn [carefulb] in H. apply andb_true_iff in H as [H H3].
  apply andb_true_iff in H as [H H2]. split; [lia|]. split; [now apply fineb_ok|]. now apply IH.
Qed.
