(** Proofs about the server, part 4: the begin of a reload, and reloads as a whole. *)
From Verif Require Import Base Server_Model Server_Spec Server_Proofs Server_Proofs2 Server_Proofs3.
Open Scope string_scope.
Open Scope list_scope.
Open Scope Z_scope.

(** ** Nothing is started *)
Definition no_start (a b : list event) : Prop := exists ev, b = a ++ ev /\ forall no, ~ In (Started no) ev.

Lemma no_start_refl a : no_start a a.
Proof. exists []. split; [symmetry; apply app_nil_r|intros no []]. Qed.
Lemma no_start_trans a b c : no_start a b -> no_start b c -> no_start a c.
Proof.
  intros (x & -> & X) (y & -> & Y). exists (x ++ y). split; [now rewrite app_assoc|].
  intros no H. apply in_app_iff in H as [H|H]; [exact (X no H)|exact (Y no H)].
Qed.
Lemma no_start_stopped a no : no_start a (a ++ [Stopped no]).
Proof. exists [Stopped no]. split; [reflexivity|]. intros n [H|[]]; discriminate. Qed.

Lemma del_no_start w n a b s : no_start (s_events s) (s_events (fst (del_jail w n a b s))).
Proof.
  unfold del_jail. destruct (lookup s n) as [j|]; [|apply no_start_refl]. cbv zeta.
  destruct b.
  - cbn [orb]. destruct (s_db _); [destruct (e_dbdel w n)|]; cbn; apply no_start_stopped.
  - cbn [orb]. destruct (is_alive j); apply no_start_refl.
Qed.

Lemma each_del_no_start w a b l : forall s, no_start (s_events s) (s_events (fst (each (fun n => del_jail w n a b) l s))).
Proof.
  intros s. apply (each_pres (fun x => no_start (s_events s) (s_events x)) (fun n => del_jail w n a b) l); [|apply no_start_refl].
  intros n x H. eapply no_start_trans; [exact H|]. apply del_no_start.
Qed.

(** ** Signals to all, then joins *)
Definition signalled (j : jail) : jail := if is_alive j then jail_stop true false j else j.

Lemma each_signal w l : forall s, NoDup l -> (forall n, In n l -> exists j, jail_of s n = Some j) ->
  exists s', each (fun n => del_jail w n true false) l s = (s', None)
    /\ (forall n, jail_of s' n = if inb n l then option_map signalled (jail_of s n) else jail_of s n)
    /\ same_rest s s' /\ s_events s' = s_events s /\ s_enabled s' = s_enabled s.
Proof.
  induction l as [|m r IH]; intros s N X.
  - exists s. repeat split; auto.
  - inversion N as [|? ? Nm Nr]; subst. cbn [each]. destruct (X m (or_introl eq_refl)) as [j L].
    unfold del_jail at 1. change (lookup s m) with (jail_of s m). rewrite L. cbn [orb]. cbv zeta.
    assert (E : exists s1, (if is_alive j then put m (jail_stop true false j) s else s) = s1
        /\ (forall n, jail_of s1 n = if eqb n m then Some (signalled j) else jail_of s n)
        /\ same_rest s s1 /\ s_events s1 = s_events s /\ s_enabled s1 = s_enabled s).
    { eexists. split; [reflexivity|]. unfold signalled. destruct (is_alive j).
      - split; [intros n; apply jail_of_put|]. repeat split.
      - split; [|repeat split]. intros n. destruct (eqb_spec n m) as [->|]; auto. }
    destruct E as (s1 & -> & J1 & R1 & V1 & B1).
    destruct (IH s1 Nr) as (s' & E & J & R & V & B).
    { intros n H. rewrite J1. destruct (eqb n m); [eauto|]. apply X. now right. }
    exists s'. split; [exact E|]. split; [|split; [eapply same_rest_trans; eauto|split; congruence]].
    intros n. rewrite J, J1. cbn [inb existsb]. unfold inb in *. destruct (eqb_spec n m) as [->|Nn].
    + apply inb_false in Nm. unfold inb in Nm. rewrite Nm, L. reflexivity.
    + reflexivity.
Qed.

Lemma stop_all_ok w s : (forall n, e_dbdel w n = true) -> inv s ->
  exists s', stop_all w s = (s', None) /\ (forall n, jail_of s' n = None)
    /\ same_rest s s'
    /\ (forall no, In (Stopped no) (s_events s') <-> In (Stopped no) (s_events s) \/
          exists m j, jail_of s m = Some j /\ no = j_no j)
    /\ no_start (s_events s) (s_events s')
    /\ (forall m, In m (s_enabled s') <-> In m (s_enabled s) /\ (s_db s = true -> ~ In m (names s))).
Proof.
  intros OK I. unfold stop_all.
  destruct (each_signal w (dkeys (s_jails s)) s) as (s1 & E1 & J1 & R1 & V1 & B1).
  { apply I. }
  { intros n H. now apply dget_ex. }
  rewrite E1.
  assert (I1 : inv s1).
  { pose proof (each_pres inv (fun n => del_jail w n true false) (dkeys (s_jails s)) (fun n s => inv_del w n true false s) s I) as H.
    now rewrite E1 in H. }
  assert (K : forall n, inb n (dkeys (s_jails s)) = match jail_of s n with Some _ => true | None => false end).
  { intros n. destruct (jail_of s n) as [j|] eqn:L.
    - apply inb_In. eapply dget_key. exact L.
    - apply inb_false. now apply dget_None. }
  assert (J1' : forall n, jail_of s1 n = option_map signalled (jail_of s n)).
  { intros n. rewrite J1, K. now destruct (jail_of s n). }
  destruct (each_del w false (dkeys (s_jails s1)) OK s1 I1) as (s2 & E2 & J2 & R2 & V2 & B2).
  { apply I1. }
  { intros n H. now apply dget_ex. }
  rewrite E2. exists s2. split; [reflexivity|].
  assert (SN : forall j, j_no (signalled j) = j_no j) by (intros j; unfold signalled; now destruct (is_alive j)).
  split; [|split; [eapply same_rest_trans; eauto|split; [|split]]].
  - intros n. rewrite J2. destruct (inb n (dkeys (s_jails s1))) eqn:E; [reflexivity|].
    apply inb_false in E. unfold jail_of. now apply dget_None.
  - intros no. rewrite V2, V1. split; (intros [H|(n & j & H)]; [now left|right]).
    + destruct H as (_ & H & E). rewrite J1' in H. destruct (jail_of s n) as [i|] eqn:L; [|discriminate].
      injection H as <-. rewrite SN in E. injection E as ->. exists n, i. auto.
    + destruct H as [L ->]. exists n, (signalled j). rewrite J1', L, SN. split; [|split; reflexivity].
      apply (dget_key n (signalled j) (s_jails s1)). pose proof (J1' n) as Q. rewrite L in Q. exact Q.
  - rewrite <- V1. pose proof (each_del_no_start w false true (dkeys (s_jails s1)) s1) as H. rewrite E2 in H. exact H.
  - intros m. rewrite B2, B1. destruct R1 as (_ & _ & _ & ->).
    assert (In m (dkeys (s_jails s1)) <-> In m (names s)).
    { change (In m (names s1) <-> In m (names s)). rewrite !jail_of_names. rewrite J1'. destruct (jail_of s m); cbn.
      - split; eauto.
      - split; intros (j & ?); discriminate. }
    tauto.
Qed.

(** ** Unbanning all *)
Lemma unban_all_in w l : forall s c b, inv s -> NoDup l -> (forall n, In n l -> exists j, jail_of s n = Some j) ->
  exists s' c', unban_in w b None l s c = (s', Good (VNum c')) /\ inv s'
    /\ (forall n, jail_of s' n = if inb n l then option_map (with_bans []) (jail_of s n) else jail_of s n)
    /\ same_rest s s' /\ s_events s' = s_events s /\ s_enabled s' = s_enabled s.
Proof.
  induction l as [|m r IH]; intros s c b I N X.
  - exists s, c. split; [reflexivity|]. split; [exact I|]. repeat split; auto.
  - inversion N as [|? ? Nm Nr]; subst. cbn [unban_in]. destruct (X m (or_introl eq_refl)) as [j L].
    change (lookup s m) with (jail_of s m). rewrite L. cbn [remove_banned].
    destruct (IH (put m (with_bans [] j) s) (c + Z.of_nat (length (j_bans j))) b) as (s' & c' & E & I' & J & R & V & B); auto.
    { apply (inv_tweak s m j); auto. apply tweak_bans. constructor. }
    { intros n H. rewrite jail_of_put. destruct (eqb n m); [eauto|]. apply X. now right. }
    exists s', c'. split; [exact E|]. split; [exact I'|]. split; [|split; [exact R|auto]].
    intros n. rewrite J, jail_of_put. cbn [inb existsb]. unfold inb in *. destruct (eqb_spec n m) as [->|Nn].
    + apply inb_false in Nm. unfold inb in Nm. rewrite Nm, L. reflexivity.
    + reflexivity.
Qed.

(** ** The begin of a reload *)
Definition sel (n m : string) : bool := eqb n all_jails || eqb m n.

Lemma sel_spec n m : sel n m = true <-> concerned n m.
Proof. unfold sel, concerned. rewrite orb_true_iff, !eqb_eq. unfold all_jails. tauto. Qed.
Lemma sel_false n m : sel n m = false <-> ~ concerned n m.
Proof. rewrite <- sel_spec. destruct (sel n m); intuition discriminate. Qed.

Definition prelude (w : env) (n : string) (o : arg) (s : srv) : srv * option err :=
  if negb (eqb n all_jails) then
    match lookup s n with
    | None => if opt_in "--if-exists" o then (s, None) else (s, Some (EUnknown n))
    | Some _ =>
        let '(s', r) := if opt_in "--unban" o then set_unban w (Some n) None true s else (s, Good VNone) in
        match r with
        | Bad e => (s', Some e)
        | Good _ => if opt_in "--restart" o then stop_jail w n s' else (s', None)
        end
    end
  else
    let '(s', r) := if opt_in "--unban" o then set_unban w None None true s else (s, Good VNone) in
    match r with
    | Bad e => (s', Some e)
    | Good _ => if opt_in "--restart" o then stop_all w s' else (s', None)
    end.

Lemma reload_begin_eq w n o s : s_reload s = [] ->
  reload_begin w (T n) o s =
  match prelude w n o s with
  | (s1, Some x) => (s1, Some x)
  | (s1, None) => each (begin_one w) (filter (sel n) (dkeys (s_jails s1))) s1
  end.
Proof. intros R. unfold reload_begin. rewrite R. reflexivity. Qed.

Lemma opt_in_texts x opts : opt_in x (A (map T opts)) = inb x opts.
Proof.
  cbn [opt_in]. unfold inb. induction opts as [|o r IH]; [reflexivity|]. cbn [map existsb]. now rewrite IH.
Qed.

Definition after_prelude (n : string) (opts : list string) (s s1 : srv) : Prop :=
  inv s1 /\ same_rest s s1
  /\ (forall m, jail_of s1 m = if sel n m && inb "--restart" opts then None
                               else if sel n m && inb "--unban" opts then option_map (with_bans []) (jail_of s m) else jail_of s m)
  /\ (forall no, In (Stopped no) (s_events s1) <-> In (Stopped no) (s_events s) \/
        In "--restart" opts /\ exists m j, concerned n m /\ jail_of s m = Some j /\ no = j_no j)
  /\ no_start (s_events s) (s_events s1).

Lemma prelude_ok w n opts s : (forall m, e_dbdel w m = true) -> inv s ->
  (n = "--all" \/ (exists j, jail_of s n = Some j) \/ In "--if-exists" opts) ->
  exists s1, prelude w n (A (map T opts)) s = (s1, None) /\ after_prelude n opts s s1.
Proof.
  intros OK I EX. unfold prelude. rewrite !opt_in_texts.
  set (U := inb "--unban" opts). set (R := inb "--restart" opts).
  assert (HR : R = true <-> In "--restart" opts) by apply inb_In.
  assert (C : forall s' (e : option err), after_prelude n opts s s' -> e = None -> exists s1, (s', e) = (s1, None) /\ after_prelude n opts s s1).
  { intros s' e H ->. eauto. }
  unfold after_prelude in *. fold R U. fold R U in C.
  destruct (eqb_spec n all_jails) as [->|Nn]; cbn [negb].
  - (* all jails *)
    assert (SA : forall m, sel all_jails m = true) by reflexivity.
    assert (CA : forall m, concerned all_jails m) by (left; reflexivity).
    (* after the unban *)
    assert (HU : exists s' v, (if U then set_unban w None None true s else (s, Good VNone)) = (s', Good v) /\ inv s'
        /\ (forall m, jail_of s' m = if U then option_map (with_bans []) (jail_of s m) else jail_of s m)
        /\ same_rest s s' /\ s_events s' = s_events s /\ s_enabled s' = s_enabled s).
    { destruct U.
      - unfold set_unban. destruct (unban_all_in w (dkeys (s_jails s)) s 0 true I) as (s' & c' & E & I' & J & RR).
        + apply I.
        + intros m H. now apply dget_ex.
        + exists s', (VNum c'). split; [exact E|]. split; [exact I'|]. split; [|exact RR].
          intros m. rewrite J. destruct (inb m _) eqn:E'; [reflexivity|]. apply inb_false in E'.
          unfold jail_of. apply dget_None in E'. now rewrite E'.
      - exists s, VNone. split; [reflexivity|]. split; [exact I|]. repeat split; auto. }
    destruct HU as (s' & v & -> & I' & J' & R' & V' & B'). clear C.
    destruct R eqn:ER.
    + destruct (stop_all_ok w s' OK I') as (s2 & E2 & J2 & R2 & V2 & NS & B2). rewrite E2. exists s2. split; [reflexivity|].
      split. { pose proof (stop_all_pres w inv (fun n a b s => inv_del w n a b s) s' I') as H. now rewrite E2 in H. }
      split; [eapply same_rest_trans; eauto|]. split; [intros m; rewrite SA; cbn [andb]; apply J2|].
      split; [|now rewrite <- V']. intros no. rewrite V2, V'. split; (intros [H|H]; [now left|right]).
      * destruct H as (m & j & H & ->). split; [now apply HR|]. rewrite J' in H. destruct U.
        { destruct (jail_of s m) as [i|] eqn:L; [|discriminate]. injection H as <-. exists m, i. auto. }
        exists m, j. auto.
      * destruct H as (_ & m & j & _ & L & ->).
        destruct U; [exists m, (with_bans [] j)|exists m, j]; rewrite J', L; auto.
    + exists s'. split; [reflexivity|]. split; [exact I'|]. split; [exact R'|].
      split; [intros m; rewrite SA; cbn [andb]; apply J'|]. split; [|rewrite V'; apply no_start_refl].
      intros no. rewrite V'. split; [auto|]. intros [H|[H _]]; [exact H|]. apply HR in H. discriminate.
  - (* one jail *)
    assert (SN : forall m, sel n m = eqb m n). { intros m. unfold sel. apply eqb_neq in Nn. now rewrite Nn. }
    assert (CN : forall m, concerned n m <-> m = n). { intros m. unfold concerned. unfold all_jails in Nn. tauto. }
    change (lookup s n) with (jail_of s n). destruct (jail_of s n) as [j|] eqn:L.
    2: { destruct EX as [E|[(j & E)|E]]; [now elim Nn|discriminate|]. apply inb_In in E. rewrite E. apply C; [|reflexivity].
      split; [exact I|]. split; [apply same_rest_refl|]. split; [|split; [|apply no_start_refl]].
      - intros m. rewrite SN. destruct (eqb_spec m n) as [->|]; cbn [andb]; [|reflexivity].
        rewrite L. cbn. now destruct R, U.
      - intros no. split; [auto|]. intros [H|(_ & m & j & H1 & H2 & _)]; [exact H|]. apply CN in H1 as ->. congruence. }
    assert (HU : exists s' v j', (if U then set_unban w (Some n) None true s else (s, Good VNone)) = (s', Good v) /\ inv s'
        /\ j' = (if U then with_bans [] j else j)
        /\ (forall m, jail_of s' m = if eqb m n then Some j' else jail_of s m)
        /\ same_rest s s' /\ s_events s' = s_events s /\ s_enabled s' = s_enabled s).
    { destruct U.
      - unfold set_unban. change (lookup s n) with (jail_of s n). rewrite L.
        destruct (unban_all_in w [n] s 0 true I) as (s' & c' & E & I' & J & RR).
        + repeat constructor. intros [].
        + intros m [<-|[]]. eauto.
        + exists s', (VNum c'), (with_bans [] j). split; [exact E|]. split; [exact I'|]. split; [reflexivity|]. split; [|exact RR].
          intros m. rewrite J. cbn [inb existsb]. destruct (eqb_spec m n) as [->|]; [|reflexivity]. cbn. now rewrite L.
      - exists s, VNone, j. split; [reflexivity|]. split; [exact I|]. repeat split; auto. intros m. destruct (eqb_spec m n) as [->|]; auto. }
    destruct HU as (s' & v & j' & -> & I' & Ej & J' & R' & V' & B'). clear C.
    assert (Lj : jail_of s' n = Some j') by (now rewrite J', eqb_refl).
    assert (No : j_no j' = j_no j) by (rewrite Ej; now destruct U).
    destruct R eqn:ER.
    + unfold stop_jail. destruct (del_jail_ok w n true s' j' I' Lj (fun _ => OK n)) as (s2 & E2 & J2 & R2 & V2 & B2).
      rewrite E2. exists s2. split; [reflexivity|].
      split. { pose proof (inv_del w n true true s' I') as H. now rewrite E2 in H. }
      split; [eapply same_rest_trans; eauto|]. split; [|split].
      * intros m. rewrite J2, SN, J'. destruct (eqb m n); reflexivity.
      * intros no. rewrite V2, in_app_iff, V', No. cbn. split.
        { intros [H|[H|[]]]; [auto|]. injection H as <-. right. split; [now apply HR|]. exists n, j. rewrite CN. auto. }
        { intros [H|(_ & m & i & H1 & H2 & ->)]; [auto|]. apply CN in H1 as ->. rewrite L in H2. injection H2 as ->. auto. }
      * rewrite V2, V'. apply no_start_stopped.
    + exists s'. split; [reflexivity|]. split; [exact I'|]. split; [exact R'|]. split; [|split].
      * intros m. rewrite SN, J'. destruct (eqb_spec m n) as [->|]; cbn [andb]; [|reflexivity].
        rewrite L, Ej. now destruct U.
      * intros no. rewrite V'. split; [auto|]. intros [H|[H _]]; [exact H|]. apply HR in H. discriminate.
      * rewrite V'. apply no_start_refl.
Qed.

Definition begun (j : jail) : jail := filter_begin (with_idle true j).

Lemma each_begin w l : begins_ok w -> forall s, NoDup l ->
  exists s', each (begin_one w) l s = (s', None)
    /\ (forall n, jail_of s' n = if inb n l then option_map begun (jail_of s n) else jail_of s n)
    /\ (forall n, dget n (s_reload s') =
          if inb n l && match jail_of s n with Some _ => true | None => false end then Some true else dget n (s_reload s))
    /\ s_quiet s' = s_quiet s /\ s_next s' = s_next s /\ s_db s' = s_db s
    /\ s_enabled s' = s_enabled s /\ s_events s' = s_events s.
Proof.
  intros OK. induction l as [|m r IH]; intros s N.
  - exists s. repeat split; auto.
  - inversion N as [|? ? Nm Nr]; subst. cbn [each]. unfold begin_one at 1. change (lookup s m) with (jail_of s m).
    apply inb_false in Nm. unfold inb in Nm.
    destruct (jail_of s m) as [j|] eqn:L.
    + rewrite OK.
      destruct (IH (put m (filter_begin (with_idle true j)) (set_reload (dset m true (s_reload s)) (put m (with_idle true j) s))) Nr)
        as (s' & E & J & RR & H).
      exists s'. split; [exact E|].
      assert (J0 : forall n, jail_of (put m (filter_begin (with_idle true j)) (set_reload (dset m true (s_reload s)) (put m (with_idle true j) s))) n
         = if eqb n m then Some (begun j) else jail_of s n).
      { intros n. rewrite jail_of_put. change (jail_of (set_reload (dset m true (s_reload s)) (put m (with_idle true j) s)) n)
          with (jail_of (put m (with_idle true j) s) n). rewrite jail_of_put. now destruct (eqb n m). }
      split; [|split; [|exact H]].
      * intros n. rewrite J, J0. cbn [inb existsb]. unfold inb in *. destruct (eqb_spec n m) as [->|Nn]; [|reflexivity].
        rewrite Nm, L. reflexivity.
      * intros n. rewrite RR, J0. cbn [inb existsb put set_jails set_reload s_reload]. unfold inb in *. rewrite dget_dset.
        destruct (eqb_spec n m) as [->|Nn]; [rewrite Nm, L; reflexivity|reflexivity].
    + destruct (IH s Nr) as (s' & E & J & RR & H). exists s'. split; [exact E|]. split; [|split; [|exact H]].
      * intros n. rewrite J. cbn [inb existsb]. unfold inb in *. destruct (eqb_spec n m) as [->|Nn]; [|reflexivity].
        rewrite Nm, L. reflexivity.
      * intros n. rewrite RR. cbn [inb existsb]. unfold inb in *. destruct (eqb_spec n m) as [->|Nn]; [|reflexivity].
        rewrite Nm, L. reflexivity.
Qed.

Lemma inb_names s n : inb n (dkeys (s_jails s)) = match jail_of s n with Some _ => true | None => false end.
Proof.
  destruct (jail_of s n) as [j|] eqn:L.
  - apply inb_In. eapply dget_key. exact L.
  - apply inb_false. now apply dget_None.
Qed.

Lemma begun_fields j : j_no (begun j) = j_no j /\ j_backend (begun j) = j_backend j /\ j_filter (begun j) = j_filter j
  /\ j_actions (begun j) = j_actions j /\ j_fail (begun j) = [] /\ j_ignore (begun j) = [] /\ j_ips (begun j) = []
  /\ j_logs (begun j) = j_logs j /\ j_opts (begun j) = j_opts j /\ j_bans (begun j) = j_bans j
  /\ j_rlogs (begun j) = if reads_files (j_backend j) then Some (j_logs j) else j_rlogs j.
Proof. unfold begun, filter_begin. cbn [with_idle j_backend]. destruct (reads_files (j_backend j)); repeat split. Qed.

Lemma reload_end_no_start w s : no_start (s_events s) (s_events (fst (reload_end w s))).
Proof.
  unfold reload_end. cbv zeta.
  assert (H : s_events (fst (each (commit_one w) (filter (fun n => negb (dmem n (s_reload s))) (dkeys (s_jails s))) s)) = s_events s).
  { apply (each_pres (fun x => s_events x = s_events s)); [|reflexivity].
    intros n x E. unfold commit_one. destruct (lookup x n); [destruct (e_end w n)|]; exact E. }
  destruct (each (commit_one w) _ s) as [s1 [e|]]; cbn [fst] in *.
  - rewrite H. apply no_start_refl.
  - pose proof (each_del_no_start w true true (filter (fun n => dmem n (s_reload s)) (dkeys (s_jails s))) s1) as H2.
    destruct (each _ _ s1) as [s2 [e|]]; cbn [fst set_reload s_events] in *; now rewrite <- H.
Qed.

Lemma filter_end_fields j : j_no (filter_end j) = j_no j /\ j_backend (filter_end j) = j_backend j
  /\ j_filter (filter_end j) = j_filter j /\ j_actions (filter_end j) = j_actions j
  /\ j_fail (filter_end j) = j_fail j /\ j_ignore (filter_end j) = j_ignore j /\ j_ips (filter_end j) = j_ips j
  /\ j_opts (filter_end j) = j_opts j /\ j_bans (filter_end j) = j_bans j /\ j_idle (filter_end j) = j_idle j.
Proof. unfold filter_end. destruct (j_rlogs j); repeat split. Qed.

Lemma filter_end_id j : j_rlogs j = None -> filter_end j = j.
Proof. unfold filter_end. now intros ->. Qed.

(** ** A reload whose configuration a new server accepts *)
Lemma reload_ok w n opts cs s F :
  inv s -> settled s -> calm w -> Forall config_command cs ->
  (n = "--all" \/ (exists j, jail_of s n = Some j) \/ In "--if-exists" opts) ->
  (forall m j, concerned n m -> jail_of s m = Some j -> running j) ->
  (forall m, In m (added cs) -> concerned n m \/ jail_of s m = None) ->
  fresh w (s_db s) cs = (F, None) -> all_running F ->
  exists s', handler w (reload n opts cs) s = (s', Good (VTxt "OK")) /\ settled s' /\ reloaded n opts F s s'.
Proof.
  intros I (Q0 & R0 & L0) CW CC EX RUN OKN FR RF.
  pose proof CW as (_ & DB & EN & BG).
  unfold reload. rewrite handler_reload. unfold reload_middle. rewrite reload_begin_eq by exact R0.
  destruct (prelude_ok w n opts (set_quiet true s) (fun m => proj2 (DB m)) (inv_quiet true s I) EX)
    as (A1 & E1 & I1 & SR1 & J1 & V1 & NS1).
  rewrite E1.
  assert (ND : NoDup (filter (sel n) (dkeys (s_jails A1)))) by (apply NoDup_filter_str, I1).
  destruct (each_begin w (filter (sel n) (dkeys (s_jails A1))) BG A1 ND) as (A0 & E0 & J0 & RR0 & Q1 & N1 & D1 & B1 & V0).
  rewrite E0.
  assert (I0 : inv A0).
  { pose proof (each_pres inv (begin_one w) (filter (sel n) (dkeys (s_jails A1))) (fun n s => inv_begin w n s) A1 I1) as H.
    now rewrite E0 in H. }
  destruct SR1 as (SRr & SRq & SRn & SRd). cbn in SRr, SRq, SRn, SRd.
  assert (J0' : forall m, jail_of A0 m = if sel n m then option_map begun (jail_of A1 m) else jail_of A1 m).
  { intros m. rewrite J0, inb_filter, inb_names. destruct (sel n m); [|reflexivity]. now destruct (jail_of A1 m). }
  assert (RR : forall m, dget m (s_reload A0) = if sel n m then match jail_of A1 m with Some _ => Some true | None => None end else None).
  { intros m. rewrite RR0, inb_filter, inb_names, SRr, R0. destruct (sel n m); [|reflexivity]. now destruct (jail_of A1 m). }
  assert (J1' : forall m, jail_of A1 m = if sel n m && inb "--restart" opts then None
      else if sel n m && inb "--unban" opts then option_map (with_bans []) (jail_of s m) else jail_of s m) by exact J1.
  (* where a jail of the state after the begin comes from *)
  assert (SRC : forall m d, jail_of A0 m = Some d -> sel n m = true ->
     ~ In "--restart" opts /\ exists j, jail_of s m = Some j /\ d = begun (if inb "--unban" opts then with_bans [] j else j)).
  { intros m d Hd S1. rewrite J0', S1, J1', S1 in Hd. cbn [andb] in Hd.
    destruct (inb "--restart" opts) eqn:ER; [discriminate|]. split; [now apply inb_false|].
    destruct (inb "--unban" opts); (destruct (jail_of s m) as [j|]; [|discriminate]); injection Hd as <-; eauto. }
  assert (Hr0 : forall m, dget m (s_reload A0) <> None -> dget m (s_reload A0) = Some true /\ exists d, jail_of A0 m = Some d).
  { intros m. rewrite RR, J0'. destruct (sel n m); [|congruence]. destruct (jail_of A1 m); cbn; eauto. congruence. }
  assert (Hd : forall m d, jail_of A0 m = Some d -> dget m (s_reload A0) = Some true ->
    running d /\ j_fail d = [] /\ j_ignore d = [] /\ j_ips d = []
    /\ j_rlogs d = (if reads_files (j_backend d) then Some (j_logs d) else None) /\ logs_ok d).
  { intros m d Hd Hr. rewrite RR in Hr. destruct (sel n m) eqn:S1; [|discriminate].
    pose proof (i_logs A0 I0 m d Hd) as LO. destruct (SRC m d Hd S1) as (_ & j & Lj & ->).
    pose proof (RUN m j (proj1 (sel_spec n m) S1) Lj) as [T1 T2]. pose proof (L0 m j Lj) as RL.
    set (j1 := if inb "--unban" opts then with_bans [] j else j) in *.
    assert (F1 : j_filter j1 = TRun /\ j_actions j1 = TRun /\ j_rlogs j1 = None) by (unfold j1; now destruct (inb "--unban" opts)).
    destruct F1 as (F1 & F2 & F3).
    destruct (begun_fields j1) as (f1 & f2 & f3 & f4 & f5 & f6 & f7 & f8 & f9 & f10 & f11).
    split; [split; congruence|]. repeat (split; [assumption|]). split; [|exact LO].
    rewrite f11, f2, f8. rewrite F3. reflexivity. }
  assert (S0 : sim A0 A0 (set_quiet true (srv_init (s_db s)))).
  { constructor; auto.
    - apply inv_quiet, inv_init.
    - rewrite Q1, SRq. reflexivity.
    - lia.
    - intros m. split; reflexivity.
    - intros no. split; [auto|]. intros [H|(m & d & jb & _ & H & _)]; [exact H|discriminate].
    - apply grown_refl. }
  destruct (sim_stream w A0 CW Hr0 Hd cs CC) with (X := A0) (B := set_quiet true (srv_init (s_db s))) (B' := F) as (X & EX' & SX); auto.
  { intros m H. destruct (OKN m H) as [C|C].
    - apply sel_spec in C. rewrite J0', RR, C. destruct (jail_of A1 m); cbn; auto.
    - left. rewrite J0', J1', C. cbn. destruct (sel n m), (inb "--restart" opts), (inb "--unban" opts); reflexivity. }
  cbn [reload_stream]. rewrite EX'.
  destruct (reload_end_ok w (set_quiet false X) EN (inv_quiet false X (s_ia _ _ _ SX))) as (s' & E2 & J2 & R2 & Q2 & N2 & D2 & V2 & B2).
  rewrite E2. exists s'. split; [reflexivity|].
  cbn [set_quiet s_reload s_quiet s_events] in *.
  assert (J2' : forall m, jail_of s' m = if dmem m (s_reload X) then None else option_map filter_end (jail_of X m)) by exact J2.
  (* the relation at one name *)
  assert (RA : forall m, rel_at A0 m (dget m (s_reload X)) (jail_of X m) (jail_of F m)) by apply SX.
  assert (RB : forall m jf, jail_of F m = Some jf -> dget m (s_reload X) = None /\ exists a, jail_of X m = Some a /\ jail_of s' m = Some (filter_end a) /\
     ((exists d, jail_of A0 m = Some d /\ dget m (s_reload A0) = Some true /\ kept d a jf /\ j_idle a = j_idle jf)
      \/ ((forall d, jail_of A0 m = Some d -> dget m (s_reload A0) = Some true /\ j_backend d <> j_backend jf)
          /\ a = renum (j_no a) jf /\ s_next A0 <= j_no a /\ j_rlogs jf = None /\ j_bans jf = []))).
  { intros m jf Lf. pose proof (RA m) as H. rewrite Lf in H. destruct H as (a & La & H). pose proof (RF m jf Lf) as RN.
    assert (DM : dmem m (s_reload X) = match dget m (s_reload X) with Some _ => true | None => false end) by reflexivity.
    destruct H as [(d & H1 & H2 & H3 & H4)|(H1 & H2 & H3 & H4 & H5 & H6 & _)].
    - destruct H4 as [[[SN _] _]|(_ & H4 & H5)]; [destruct RN; congruence|]. split; [exact H4|]. exists a. split; [exact La|].
      split; [rewrite J2', DM, H4, La; reflexivity|]. left. exists d. auto.
    - split; [exact H2|]. exists a. split; [exact La|]. split; [rewrite J2', DM, H2, La; reflexivity|]. right. auto. }
  assert (RN : forall m, jail_of F m = None -> jail_of s' m = if sel n m then None else jail_of s m).
  { intros m Lf. pose proof (RA m) as H. rewrite Lf in H. destruct H as [H1 H2]. rewrite J2'. unfold dmem. rewrite H1, H2, RR, J0'.
    destruct (sel n m) eqn:S1.
    - destruct (jail_of A1 m); reflexivity.
    - rewrite J1', S1. cbn [andb]. destruct (jail_of s m) as [j|] eqn:Lj; [|reflexivity]. cbn. now rewrite (filter_end_id j (L0 m j Lj)). }
  assert (CF : forall m d jf, jail_of A0 m = Some d -> jail_of F m = Some jf -> sel n m = true).
  { intros m d jf Ld Lf. destruct (RB m jf Lf) as (_ & a & _ & _ & [(d' & _ & H & _)|(H & _)]).
    - rewrite RR in H. destruct (sel n m); [reflexivity|discriminate].
    - destruct (H d Ld) as [H' _]. rewrite RR in H'. destruct (sel n m); [reflexivity|discriminate]. }
  assert (NX : s_next A0 = s_next s) by congruence.
  split; [|constructor].
  - (* settled *)
    split; [rewrite Q2; reflexivity|]. split; [exact R2|]. intros m j H. rewrite J2' in H. destruct (dmem m (s_reload X)); [discriminate|].
    destruct (jail_of X m) as [a|]; [|discriminate]. injection H as <-. apply filter_end_rlogs.
  - intros m C Lf. rewrite RN by exact Lf. apply sel_false in C. now rewrite C.
  - intros m C. rewrite !jail_of_names. destruct (jail_of F m) as [jf|] eqn:Lf.
    + destruct (RB m jf Lf) as (_ & a & _ & H & _). rewrite H. split; eauto.
    + rewrite RN by exact Lf. destruct C as [C|C].
      * apply sel_spec in C. rewrite C. split; intros (j & H); discriminate.
      * apply jail_of_names in C as (j & H). congruence.
  - intros m j' C H. apply jail_of_names in C as (jf & Lf). destruct (RB m jf Lf) as (_ & a & La & H' & K).
    rewrite H in H'. injection H' as ->. destruct (filter_end_fields a) as (_ & _ & f3 & f4 & _).
    unfold running. rewrite f3, f4. destruct K as [(d & _ & _ & K & _)|(_ & -> & _)].
    + destruct K as [_ _ _ [] _ _ _ _ _ _ _]. auto.
    + destruct (RF m jf Lf). auto.
  - intros m j jf C Lj Lf EB NR. apply sel_spec in C. destruct (RB m jf Lf) as (_ & a & La & H' & K).
    assert (ER : inb "--restart" opts = false) by (now apply inb_false).
    assert (Ld : jail_of A0 m = Some (begun (if inb "--unban" opts then with_bans [] j else j))).
    { rewrite J0', C, J1', C, ER, Lj. cbn. now destruct (inb "--unban" opts). }
    set (j1 := if inb "--unban" opts then with_bans [] j else j) in *.
    destruct (begun_fields j1) as (f1 & f2 & f3 & f4 & f5 & f6 & f7 & f8 & f9 & f10 & f11).
    assert (G : j_no j1 = j_no j /\ j_backend j1 = j_backend j /\ j_opts j1 = j_opts j /\ j_bans j1 = if inb "--unban" opts then [] else j_bans j).
    { unfold j1. now destruct (inb "--unban" opts). }
    destruct G as (g1 & g2 & g3 & g4).
    exists (filter_end a). split; [exact H'|]. destruct (filter_end_fields a) as (h1 & h2 & h3 & h4 & h5 & h6 & h7 & h8 & h9 & h10).
    destruct K as [(d & Ld' & _ & K & ID)|(H1 & _)].
    2: { destruct (H1 _ Ld) as [_ H2]. congruence. }
    rewrite Ld in Ld'. injection Ld' as <-. destruct K as [k1 k2 k3 k4 k5 k6 k7 k8 k9 k10 k11].
    split; [congruence|]. split; [congruence|]. split.
    + constructor; try congruence. intros p. pose proof (i_logs X (s_ia _ _ _ SX) m a La) as (LN & _ & _).
      destruct (reads_files (j_backend (begun j1))).
      * destruct k11 as (rl & e1 & e2 & e3). unfold filter_end. rewrite e1. cbn [with_logs j_logs].
        rewrite In_fold_remove1 by exact LN. symmetry. apply e3.
      * destruct k11 as (e1 & e2 & e3). rewrite filter_end_id by exact e3. rewrite e1, e2. tauto.
    + intros k. rewrite h8, k9, f9, g3. reflexivity.
  - intros m jf Lf OLD. destruct (RB m jf Lf) as (_ & a & La & H' & K).
    destruct K as [(d & Ld & Rd & K & ID)|(H1 & H2 & H3 & H4 & H5)].
    { exfalso. assert (C : sel n m = true) by (rewrite RR in Rd; destruct (sel n m); [reflexivity|discriminate]).
      destruct (SRC m d Ld C) as (NR & j & Lj & ->). destruct (OLD j Lj) as [H|H]; [contradiction|].
      destruct K as [k1 k2 k3 _ _ _ _ _ _ _ _]. apply H. rewrite k3.
      destruct (begun_fields (if inb "--unban" opts then with_bans [] j else j)) as (_ & f2 & _). rewrite f2. now destruct (inb "--unban" opts). }
    exists (filter_end a). split; [exact H'|]. rewrite filter_end_id by (rewrite H2; exact H4).
    rewrite H2. cbn [renum j_bans j_opts j_no]. split; [exact H5|]. split; [constructor; reflexivity || (intros; reflexivity)|].
    split; [reflexivity|]. split; [|split].
    + intros k i Lk. pose proof (i_no s I k i Lk). lia.
    + intros H. pose proof (i_ev s I _ H) as H6. cbn in H6. lia.
    + intros H. pose proof (i_ev s I _ H) as H6. cbn in H6. lia.
  - intros no. unfold was_stopped. rewrite V2. rewrite (s_stop _ _ _ SX), V0, V1. cbn [set_quiet s_events].
    split.
    + intros [[[H|(NR & m & j & C & Lj & ->)]|(m & d & jb & Ld & Lf & NB & ->)]|(m & a & DM & La & E)].
      * auto.
      * right. exists m, j. intuition.
      * right. assert (C := CF m d jb Ld Lf). destruct (SRC m d Ld C) as (NR & j & Lj & ->).
        destruct (begun_fields (if inb "--unban" opts then with_bans [] j else j)) as (f1 & f2 & _).
        exists m, j. split; [now apply sel_spec|]. split; [exact Lj|]. split; [rewrite f1; now destruct (inb "--unban" opts)|].
        intros (_ & jf & Lf' & EB). apply NB. rewrite f2. rewrite Lf in Lf'. injection Lf' as <-. rewrite EB. now destruct (inb "--unban" opts).
      * injection E as ->. destruct (jail_of F m) as [jf|] eqn:Lf.
        { destruct (RB m jf Lf) as (H & _). unfold dmem in DM. rewrite H in DM. discriminate. }
        pose proof (RA m) as H. rewrite Lf in H. destruct H as [H1 H2]. unfold dmem in DM. rewrite H2, RR in DM.
        destruct (sel n m) eqn:C; [|discriminate]. change (jail_of X m = Some a) in La. rewrite La in H1. symmetry in H1.
        destruct (SRC m a H1 C) as (NR & j & Lj & ->). right.
        destruct (begun_fields (if inb "--unban" opts then with_bans [] j else j)) as (f1 & f2 & _).
        exists m, j. split; [now apply sel_spec|]. split; [exact Lj|]. split; [rewrite f1; now destruct (inb "--unban" opts)|].
        intros (_ & jf & Lf' & _). congruence.
    + intros [H|(m & j & C & Lj & -> & NK)]; [auto|]. destruct (inb "--restart" opts) eqn:ER.
      { apply inb_In in ER. left. left. right. split; [exact ER|]. exists m, j. auto. }
      assert (NR : ~ In "--restart" opts) by (now apply inb_false). pose proof C as C'. apply sel_spec in C'.
      assert (Ld : jail_of A0 m = Some (begun (if inb "--unban" opts then with_bans [] j else j))).
      { rewrite J0', C', J1', C', ?ER, Lj. cbn. now destruct (inb "--unban" opts). }
      destruct (begun_fields (if inb "--unban" opts then with_bans [] j else j)) as (f1 & f2 & _).
      assert (G : j_no (begun (if inb "--unban" opts then with_bans [] j else j)) = j_no j
                 /\ j_backend (begun (if inb "--unban" opts then with_bans [] j else j)) = j_backend j)
        by (rewrite f1, f2; now destruct (inb "--unban" opts)).
      destruct G as [g1 g2].
      destruct (jail_of F m) as [jf|] eqn:Lf.
      * left. right. exists m, (begun (if inb "--unban" opts then with_bans [] j else j)), jf. split; [exact Ld|]. split; [exact Lf|].
        split; [|congruence]. intros EB. apply NK. split; [exact NR|]. exists jf. split; [reflexivity|]. congruence.
      * right. pose proof (RA m) as H. rewrite Lf in H. destruct H as [H1 H2].
        exists m, (begun (if inb "--unban" opts then with_bans [] j else j)). split; [|split; [change (jail_of X m = Some (begun (if inb "--unban" opts then with_bans [] j else j))); congruence|congruence]].
        unfold dmem. rewrite H2, RR, C'. rewrite J0', C' in Ld. destruct (jail_of A1 m); [reflexivity|discriminate].
  - pose proof (reload_end_no_start w (set_quiet false X)) as NS2. rewrite E2 in NS2. cbn [fst set_quiet s_events] in NS2.
    destruct NS1 as (e1 & H1 & G1), (s_start _ _ _ SX) as (e2 & H2 & G2), NS2 as (e3 & H3 & G3).
    cbn [set_quiet s_events] in H1. exists (e1 ++ e2 ++ e3). split.
    + rewrite H3, H2, V0, H1, <- !app_assoc. reflexivity.
    + intros m j Lj H. rewrite !in_app_iff in H. destruct H as [H|[H|H]]; [exact (G1 _ H)| |exact (G3 _ H)].
      apply G2 in H. pose proof (i_no s I m j Lj). lia.
Qed.
