(** Proofs about the server, part 3: a reload compared with a new server. *)
From Verif Require Import Base Server_Model Server_Spec Server_Proofs Server_Proofs2.
Open Scope string_scope.
Open Scope list_scope.
Open Scope Z_scope.

(** ** One jail under reload against the same jail of a new server *)
Definition renum (no : Z) (j : jail) : jail :=
  MkJail no (j_backend j) (j_filter j) (j_actions j) (j_idle j) (j_fail j) (j_ignore j) (j_ips j) (j_logs j) (j_rlogs j) (j_opts j) (j_bans j).

Definition still_new (j : jail) : Prop := j_filter j = TNew /\ j_actions j = TNew.

Record kept (d a b : jail) : Prop := {
  k_no : j_no a = j_no d;
  k_back : j_backend a = j_backend d; k_backb : j_backend b = j_backend d;
  k_run : running a;
  k_fail : j_fail a = j_fail b; k_ignore : j_ignore a = j_ignore b; k_ips : j_ips a = j_ips b;
  k_bans : j_bans a = j_bans d; 
  k_opts : merged_opts d b a;
  k_rlb : j_rlogs b = None;
  k_logs : if reads_files (j_backend d)
           then exists rl, j_rlogs a = Some rl /\ incl rl (j_logs a) /\ forall p, In p (j_logs b) <-> In p (j_logs a) /\ ~ In p rl
           else j_logs a = [] /\ j_logs b = [] /\ j_rlogs a = None }.

(** A command on one jail does the same to both. *)
Record alike (f : jail -> jail * option err) : Prop := {
  al_tweak : forall j, tweak j (fst (f j));
  al_kept : forall d a b, kept d a b -> logs_ok a -> logs_ok b -> snd (f a) = snd (f b) /\ kept d (fst (f a)) (fst (f b));
  al_idle : forall d a b, kept d a b -> j_idle a = j_idle b -> j_idle (fst (f a)) = j_idle (fst (f b));
  al_bans : forall j, j_bans (fst (f j)) = j_bans j;
  al_renum : forall no b, f (renum no b) = (renum no (fst (f b)), snd (f b)) }.

Lemma alike_idle b : alike (fun j => (with_idle b j, None)).
Proof.
  constructor; intros; try reflexivity.
  - apply tweak_idle.
  - split; [reflexivity|]. destruct H. constructor; auto.
Qed.

Lemma alike_ips okv l : alike (fun j => let '(x, ok) := add_each okv l (j_ips j) in (with_ips x j, if ok then None else Some EValue)).
Proof.
  constructor; intros.
  - destruct (add_each okv l (j_ips j)). apply tweak_ips.
  - rewrite (k_ips _ _ _ H). destruct (add_each okv l (j_ips b)). split; [reflexivity|]. destruct H. constructor; auto.
  - destruct (add_each okv l (j_ips a)), (add_each okv l (j_ips b)). exact H0.
  - destruct (add_each okv l (j_ips j)). reflexivity.
  - cbn [renum j_ips]. destruct (add_each okv l (j_ips b)). reflexivity.
Qed.

Lemma alike_delip v : alike (fun j => if inb v (j_ips j) then (with_ips (remove1 v (j_ips j)) j, None) else (j, Some EValue)).
Proof.
  constructor; intros.
  - destruct (inb v (j_ips j)); [apply tweak_ips|apply tweak_refl].
  - rewrite (k_ips _ _ _ H). destruct (inb v (j_ips b)); (split; [reflexivity|]); destruct H; constructor; cbn; auto.
  - destruct (inb v (j_ips a)), (inb v (j_ips b)); exact H0.
  - destruct (inb v (j_ips j)); reflexivity.
  - cbn [renum j_ips]. destruct (inb v (j_ips b)); reflexivity.
Qed.

Lemma alike_fail okv l : alike (fun j => let '(x, ok) := add_each okv l (j_fail j) in (with_fail x j, if ok then None else Some EValue)).
Proof.
  constructor; intros.
  - destruct (add_each okv l (j_fail j)). apply tweak_fail.
  - rewrite (k_fail _ _ _ H). destruct (add_each okv l (j_fail b)). split; [reflexivity|]. destruct H. constructor; auto.
  - destruct (add_each okv l (j_fail a)), (add_each okv l (j_fail b)). exact H0.
  - destruct (add_each okv l (j_fail j)). reflexivity.
  - cbn [renum j_fail]. destruct (add_each okv l (j_fail b)). reflexivity.
Qed.

Lemma alike_ignore okv l : alike (fun j => let '(x, ok) := add_each okv l (j_ignore j) in (with_ignore x j, if ok then None else Some EValue)).
Proof.
  constructor; intros.
  - destruct (add_each okv l (j_ignore j)). apply tweak_ignore.
  - rewrite (k_ignore _ _ _ H). destruct (add_each okv l (j_ignore b)). split; [reflexivity|]. destruct H. constructor; auto.
  - destruct (add_each okv l (j_ignore a)), (add_each okv l (j_ignore b)). exact H0.
  - destruct (add_each okv l (j_ignore j)). reflexivity.
  - cbn [renum j_ignore]. destruct (add_each okv l (j_ignore b)). reflexivity.
Qed.

Lemma alike_delfail i : alike (fun j => (with_fail (del_index i (j_fail j)) j, None)).
Proof.
  constructor; intros; try reflexivity.
  - apply tweak_fail.
  - split; [reflexivity|]. cbn [fst]. rewrite (k_fail _ _ _ H). destruct H. constructor; auto.
  - exact H0.
Qed.

Lemma alike_delignore i : alike (fun j => (with_ignore (del_index i (j_ignore j)) j, None)).
Proof.
  constructor; intros; try reflexivity.
  - apply tweak_ignore.
  - split; [reflexivity|]. cbn [fst]. rewrite (k_ignore _ _ _ H). destruct H. constructor; auto.
  - exact H0.
Qed.

Lemma alike_opts k v : alike (fun j => (with_opts (dset k v (j_opts j)) j, None)).
Proof.
  constructor; intros; try reflexivity.
  - apply tweak_opts.
  - split; [reflexivity|]. cbn [fst]. destruct H. constructor; auto.
    intros k'. cbn [with_opts j_opts]. rewrite !dget_dset. destruct (eqb k' k); [reflexivity|]. apply k_opts0.
  - exact H0.
Qed.

Lemma alike_addlog p : alike (fun j => (add_log p j, None)).
Proof.
  constructor; intros; cbn [fst snd].
  - apply tweak_add_log.
  - split; [reflexivity|]. pose proof (tw_logs _ _ (tweak_add_log p a) H0) as La.
    destruct H. unfold add_log in *. rewrite k_backb0. rewrite k_back0 in *. rewrite k_rlb0.
    destruct (reads_files (j_backend d)) eqn:F; cbn [negb] in *.
    2: { constructor; auto. rewrite F. exact k_logs0. }
    destruct k_logs0 as (rl & Hr & Hi & Hl). rewrite Hr in *.
    destruct H0 as (Na & Nr & _). destruct H1 as (Nb & _). specialize (Nr rl Hr).
    destruct (inb p (j_logs a)) eqn:Ia.
    + apply inb_In in Ia. destruct (inb p rl) eqn:Ir.
      * apply inb_In in Ir.
        assert (Ib : inb p (j_logs b) = false) by (apply inb_false; rewrite Hl; tauto). rewrite Ib.
        constructor; auto; cbn. rewrite F. exists (remove1 p rl). split; [reflexivity|]. split; [intros q X; apply Hi; eapply In_remove1; eauto|]. intros q.
        rewrite in_app_iff, Hl, In_remove1_iff by exact Nr. cbn. split.
        { intros [[X Y]|[<-|[]]]; [split; [exact X|tauto]|split; [exact Ia|tauto]]. }
        { intros [X Y]. destruct (eqb_spec p q) as [->|Nq]; [auto|]. left. split; [exact X|]. intros Z1. apply Y. split; [exact Z1|congruence]. }
      * apply inb_false in Ir. assert (Ib : inb p (j_logs b) = true) by (apply inb_In; apply Hl; auto). rewrite Ib.
        constructor; auto. rewrite F. eauto.
    + apply inb_false in Ia. 
      assert (Ib : inb p (j_logs b) = false) by (apply inb_false; rewrite Hl; tauto). rewrite Ib.
      assert (X : ~ In p rl) by (intros X; apply Ia, Hi, X).
      constructor; auto; cbn. rewrite F. exists rl. split; [reflexivity|].
      split; [intros q Y; apply in_or_app; left; now apply Hi|]. intros q. rewrite !in_app_iff, Hl. cbn.
      split; [intros [[Y Y']|[<-|[]]]; auto|]. intros [[Y|[<-|[]]] Y']; auto.
  - unfold add_log. destruct (negb _); destruct (negb _); cbn; auto.
    all: repeat match goal with |- context [if ?x then _ else _] => destruct x end; cbn; auto.
    all: repeat match goal with |- context [match ?x with _ => _ end] => destruct x end; cbn; auto.
  - unfold add_log. destruct (negb _); [reflexivity|]. destruct (inb _ _); [|reflexivity].
    destruct (j_rlogs j); [|reflexivity]. destruct (inb _ _); reflexivity.
  - unfold add_log. cbn [renum j_backend j_logs j_rlogs]. destruct (negb _); [reflexivity|]. destruct (inb _ _); [|reflexivity].
    destruct (j_rlogs b); [|reflexivity]. destruct (inb _ _); reflexivity.
Qed.

Lemma jail_of_note e s n : jail_of (note e s) n = jail_of s n.
Proof. reflexivity. Qed.

(** ** The relation between the server under reload and the new server *)
Section Sim.
  Variable w : env.
  Variable A0 : srv.              (* the server after the begin of the reload *)
  Hypothesis CW : calm w.
  Let d_of n := jail_of A0 n.
  Let r_of n := dget n (s_reload A0).
  Hypothesis Hr0 : forall n, r_of n <> None -> r_of n = Some true /\ exists d, d_of n = Some d.
  Hypothesis Hd : forall n d, d_of n = Some d -> r_of n = Some true ->
    running d /\ j_fail d = [] /\ j_ignore d = [] /\ j_ips d = []
    /\ j_rlogs d = (if reads_files (j_backend d) then Some (j_logs d) else None) /\ logs_ok d.

  Definition pair_rel (n : string) (r : option bool) (a b : jail) : Prop :=
    (exists d, d_of n = Some d /\ r_of n = Some true /\ kept d a b /\
       ((still_new b /\ r = Some false) \/ (running b /\ r = None /\ j_idle a = j_idle b)))
    \/ ((forall d, d_of n = Some d -> r_of n = Some true /\ j_backend d <> j_backend b)
        /\ r = None /\ a = renum (j_no a) b /\ s_next A0 <= j_no a /\ j_rlogs b = None /\ j_bans b = []
        /\ (still_new b \/ running b)).

  Definition rel_at (n : string) (r : option bool) (a b : option jail) : Prop :=
    match b with
    | None => a = d_of n /\ r = r_of n
    | Some jb => exists ja, a = Some ja /\ pair_rel n r ja jb
    end.

  Definition grown (a b : list event) : Prop :=
    exists ev, b = a ++ ev /\ forall no, In (Started no) ev -> s_next A0 <= no.

  Lemma grown_refl a : grown a a.
  Proof. exists []. split; [symmetry; apply app_nil_r|intros no []]. Qed.
  Lemma grown_trans a b c : grown a b -> grown b c -> grown a c.
  Proof.
    intros (x & -> & X) (y & -> & Y). exists (x ++ y). split; [now rewrite app_assoc|].
    intros no H. apply in_app_iff in H as [H|H]; auto.
  Qed.
  Lemma grown_one a e : (forall no, e = Started no -> s_next A0 <= no) -> grown a (a ++ [e]).
  Proof. intros H. exists [e]. split; [reflexivity|]. intros no [E|[]]; auto. Qed.

  Record sim (X B : srv) : Prop := {
    s_ia : inv X; s_ib : inv B; s_qa : s_quiet X = true; s_qb : s_quiet B = true; s_rb : s_reload B = [];
    s_nx : s_next A0 <= s_next X;
    s_rel : forall n, rel_at n (dget n (s_reload X)) (jail_of X n) (jail_of B n);
    s_stop : forall no, In (Stopped no) (s_events X) <-> In (Stopped no) (s_events A0) \/
       exists n d jb, d_of n = Some d /\ jail_of B n = Some jb /\ j_backend d <> j_backend jb /\ no = j_no d;
    s_start : grown (s_events A0) (s_events X);
    s_dbx : s_db X = s_db A0 }.

  Lemma pair_alike f n r a b : alike f -> logs_ok a -> logs_ok b -> pair_rel n r a b ->
    snd (f a) = snd (f b) /\ pair_rel n r (fst (f a)) (fst (f b)).
  Proof.
    intros F La Lb. pose proof (al_tweak f F b) as Wb.
    assert (TN : still_new b -> still_new (fst (f b))).
    { unfold still_new. rewrite (tw_filter _ _ Wb), (tw_actions _ _ Wb). auto. }
    assert (TR : running b -> running (fst (f b))).
    { unfold running. rewrite (tw_filter _ _ Wb), (tw_actions _ _ Wb). auto. }
    intros [(d & D1 & D2 & K & S)|(D & R & E & N & Rb & Bb & S)].
    - destruct (al_kept f F d a b K La Lb) as [E K']. split; [exact E|]. left. exists d.
      split; [exact D1|]. split; [exact D2|]. split; [exact K'|].
      destruct S as [[S1 S2]|(S1 & S2 & S3)]; [left; auto|right]. split; [auto|]. split; [exact S2|].
      eapply al_idle; eauto.
    - rewrite E, (al_renum f F). cbn [fst snd]. split; [reflexivity|]. right.
      rewrite (tw_backend _ _ Wb). split; [exact D|]. split; [exact R|]. split; [reflexivity|].
      split; [exact N|]. split; [apply Wb; exact Rb|]. split; [rewrite (al_bans f F); exact Bb|].
      destruct S; auto.
  Qed.

  Lemma sim_on_jail n f ret X B B' v : alike f -> sim X B ->
    on_jail n B f ret = (B', Good v) ->
    exists X' v', on_jail n X f ret = (X', Good v') /\ sim X' B'.
  Proof.
    intros F S. unfold on_jail. change (lookup ?s n) with (jail_of s n).
    destruct (jail_of B n) as [b|] eqn:Lb; [|discriminate].
    pose proof (s_rel X B S n) as R. rewrite Lb in R. destruct R as (a & La & R). rewrite La.
    pose proof (i_logs X (s_ia X B S) n a La) as Oa. pose proof (i_logs B (s_ib X B S) n b Lb) as Ob.
    destruct (pair_alike f n _ a b F Oa Ob R) as [E R'].
    pose proof (al_tweak f F a) as Wa. pose proof (al_tweak f F b) as Wb.
    destruct (f a) as [a' ea], (f b) as [b' eb]. cbn [fst snd] in *. subst ea.
    destruct eb; [discriminate|]. intros H. injection H as <- _.
    eexists _, _. split; [reflexivity|].
    destruct S. constructor; auto.
    - now apply (inv_tweak X n a).
    - now apply (inv_tweak B n b).
    - intros m. rewrite !jail_of_put. change (s_reload (put n a' X)) with (s_reload X).
      destruct (eqb_spec m n) as [->|Nm]; [|apply s_rel0]. exists a'. auto.
    - intros no. change (s_events (put n a' X)) with (s_events X). rewrite s_stop0. 
      split; (intros [H|(m & d & jb & D1 & D2 & D3 & D4)]; [now left|right]).
      + destruct (eqb_spec m n) as [->|Nm].
        * exists n, d, b'. rewrite jail_of_put, eqb_refl. rewrite (tw_backend _ _ Wb).
          rewrite Lb in D2. injection D2 as <-. auto.
        * exists m, d, jb. rewrite jail_of_put. apply eqb_neq in Nm. rewrite Nm. auto.
      + rewrite jail_of_put in D2. destruct (eqb_spec m n) as [->|Nm].
        * injection D2 as <-. rewrite (tw_backend _ _ Wb) in D3. exists n, d, b. auto.
        * exists m, d, jb. auto.
  Qed.

  Definition config_key (k : string) : Prop := k <> "banip" /\ k <> "unbanip" /\ k <> "dellogpath".

  Lemma sim_same (r : res) X B B' v : sim X B -> (B, r) = (B', Good v) -> exists X' v', (X, r) = (X', Good v') /\ sim X' B'.
  Proof. intros S H. injection H as <- ->. eauto. Qed.

  Lemma sim_lookup X B n (e : res) : sim X B -> forall B' v,
    match lookup B n with None => (B, Bad (EUnknown n)) | Some _ => (B, e) end = (B', Good v) ->
    exists X' v', match lookup X n with None => (X, Bad (EUnknown n)) | Some _ => (X, e) end = (X', Good v') /\ sim X' B'.
  Proof.
    intros S B' v. change (lookup ?s n) with (jail_of s n). destruct (jail_of B n) as [b|] eqn:Lb; [|discriminate].
    pose proof (s_rel X B S n) as R. rewrite Lb in R. destruct R as (a & La & _). rewrite La. now apply sim_same.
  Qed.

  Lemma sim_set_key m n k vs X B B' v : config_key k -> sim X B ->
    set_key w m n k vs B = (B', Good v) ->
    exists X' v', set_key w m n k vs X = (X', Good v') /\ sim X' B'.
  Proof.
    intros (K1 & K2 & K3) S. unfold set_key.
    destruct (eqb k "idle").
    { destruct vs as [|[t|] r]; [now apply sim_same| |now apply sim_same].
      destruct (eqb t "on"); [apply sim_on_jail; [apply alike_idle|exact S]|].
      destruct (eqb t "off"); [apply sim_on_jail; [apply alike_idle|exact S]|now apply sim_same]. }
    destruct (eqb k "addignoreip").
    { destruct (texts vs) as [l|]; [|now apply sim_same]. rewrite (s_qa X B S), (s_qb X B S).
      destruct (_ && true); [now apply sim_same|]. apply sim_on_jail; [apply alike_ips|exact S]. }
    destruct (eqb k "delignoreip").
    { destruct vs as [|[t|] r]; [now apply sim_same| |now apply sim_same]. apply sim_on_jail; [apply alike_delip|exact S]. }
    destruct (eqb k "addlogpath").
    { destruct vs as [|[t|] [|[t2|] [|]]]; try (now apply sim_same); [apply sim_on_jail; [apply alike_addlog|exact S]|].
      destruct (_ || _); [apply sim_on_jail; [apply alike_addlog|exact S]|now apply sim_same]. }
    destruct (eqb_spec k "dellogpath"); [contradiction|].
    destruct (eqb k "addfailregex" || eqb k "addignoreregex").
    { cbv zeta. destruct (match vs with [] => _ | _ => _ end) as [e|l]; [now apply sim_same|].
      destruct (eqb k "addfailregex").
      - match goal with |- context [on_jail n B ?f ?r] => 
          pose proof (fun v' => sim_on_jail n f r X B B' v' (alike_fail (e_regex w) l) S) as H; destruct (on_jail n B f r) as [s' r'] end.
        destruct r' as [v'|e]; [|discriminate]. intros E.
        assert (Es : s' = B') by (destruct m; now injection E). subst s'. destruct (H v' eq_refl) as (X' & v'' & EX & SX).
        rewrite EX. exists X', (if m then VBool true else v''). split; [|exact SX]. destruct m; reflexivity.
      - match goal with |- context [on_jail n B ?f ?r] => 
          pose proof (fun v' => sim_on_jail n f r X B B' v' (alike_ignore (e_regex w) l) S) as H; destruct (on_jail n B f r) as [s' r'] end.
        destruct r' as [v'|e]; [|discriminate]. intros E.
        assert (Es : s' = B') by (destruct m; now injection E). subst s'. destruct (H v' eq_refl) as (X' & v'' & EX & SX).
        rewrite EX. exists X', (if m then VBool true else v''). split; [|exact SX]. destruct m; reflexivity. }
    destruct (eqb k "delfailregex" || eqb k "delignoreregex").
    { cbv zeta. destruct vs as [|[t|] r]; [now apply sim_same| |now apply sim_same].
      destruct (e_int w t); [|now apply sim_same].
      destruct (eqb k "delfailregex"); apply sim_on_jail; auto using alike_delfail, alike_delignore. }
    destruct (is_value_setting k).
    { destruct vs as [|[t|] r]; [now apply sim_same| |now apply sim_same].
      destruct (e_value w k t); [|now apply sim_same]. apply sim_on_jail; auto using alike_opts. }
    destruct (eqb_spec k "banip"); [contradiction|].
    destruct (eqb_spec k "unbanip"); [contradiction|].
    destruct (eqb k "attempt").
    { rewrite (s_qa X B S), (s_qb X B S). now apply sim_same. }
    destruct (inb k _); [|now apply sim_same]. now apply sim_lookup.
  Qed.

  Lemma sim_set m n k vs X B B' v : config_key k -> sim X B ->
    command_set w m (T n :: T k :: vs) B = (B', Good v) ->
    exists X' v', command_set w m (T n :: T k :: vs) X = (X', Good v') /\ sim X' B'.
  Proof.
    intros K S. unfold command_set. destruct (inb n server_settings); [now apply sim_same|]. now apply sim_set_key.
  Qed.

  Lemma sim_start n X B B' v : sim X B -> done (start_jail w n B) VNone = (B', Good v) ->
    exists X' v', done (start_jail w n X) VNone = (X', Good v') /\ sim X' B'.
  Proof.
    intros S. unfold start_jail. change (lookup ?s n) with (jail_of s n).
    destruct (jail_of B n) as [b|] eqn:Lb; [|discriminate].
    pose proof (s_rel X B S n) as R. rewrite Lb in R. destruct R as (a & La & R). rewrite La.
    destruct CW as (TH & _). destruct (TH n) as [T1 T2].
    assert (Mb : dmem n (s_reload B) = false) by (rewrite (s_rb X B S); reflexivity). rewrite Mb.
    assert (MX : dmem n (s_reload X) = match dget n (s_reload X) with Some _ => true | None => false end) by reflexivity.
    pose proof (inv_start w n X (s_ia X B S)) as IX. pose proof (inv_start w n B (s_ib X B S)) as IB.
    unfold start_jail in IX, IB. change (lookup ?s n) with (jail_of s n) in IX, IB. rewrite La in IX. rewrite Lb, Mb in IB.
    (* the two ways to go on: the common end of a start *)
    assert (FIN : forall X1 B1 a1 b1 (x : srv * option err) (y : srv * option err),
      x = (if j_idle a1 then put n (with_idle false a1) X1 else X1, None) ->
      y = (if j_idle b1 then put n (with_idle false b1) B1 else B1, None) ->
      inv (fst x) -> inv (fst y) ->
      jail_of X1 n = Some a1 -> jail_of B1 n = Some b1 ->
      (forall m, m <> n -> jail_of X1 m = jail_of X m) -> (forall m, m <> n -> jail_of B1 m = jail_of B m) ->
      (forall m, m <> n -> dget m (s_reload X1) = dget m (s_reload X)) ->
      s_reload B1 = [] -> s_quiet X1 = true -> s_quiet B1 = true -> s_next X1 = s_next X -> s_db X1 = s_db X ->
      (forall no, In (Stopped no) (s_events X1) <-> In (Stopped no) (s_events X)) ->
      grown (s_events X) (s_events X1) ->
      j_backend b1 = j_backend b ->
      pair_rel n (dget n (s_reload X1)) (with_idle false a1) (with_idle false b1) ->
      done y VNone = (B', Good v) ->
      exists X' v', done x VNone = (X', Good v') /\ sim X' B').
    { intros X1 B1 a1 b1 x y -> -> Ix Iy Lx Ly Ox Oy Or Rb Qa Qb Nx Db Es Et Bk PR Hd0. cbn [done] in *.
      injection Hd0 as <- _. eexists _, _. split; [reflexivity|]. cbn [fst] in Ix, Iy.
      assert (E1 : forall m, jail_of (if j_idle a1 then put n (with_idle false a1) X1 else X1) m =
                   if eqb m n then Some (with_idle false a1) else jail_of X m).
      { intros m. destruct (j_idle a1) eqn:Ia; [rewrite jail_of_put|]; destruct (eqb_spec m n) as [->|Nm]; auto.
        rewrite Lx. destruct a1; cbn in *. now subst. }
      assert (E2 : forall m, jail_of (if j_idle b1 then put n (with_idle false b1) B1 else B1) m =
                   if eqb m n then Some (with_idle false b1) else jail_of B m).
      { intros m. destruct (j_idle b1) eqn:Ib; [rewrite jail_of_put|]; destruct (eqb_spec m n) as [->|Nm]; auto.
        rewrite Ly. destruct b1; cbn in *. now subst. }
      destruct S. constructor; auto.
      - destruct (j_idle a1); exact Qa.
      - destruct (j_idle b1); exact Qb.
      - destruct (j_idle b1); exact Rb.
      - replace (s_next (if j_idle a1 then _ else _)) with (s_next X1) by now destruct (j_idle a1). now rewrite Nx.
      - intros m. rewrite E1, E2.
        replace (s_reload (if j_idle a1 then _ else _)) with (s_reload X1) by now destruct (j_idle a1).
        destruct (eqb_spec m n) as [->|Nm]; [exists (with_idle false a1); auto|]. rewrite Or by exact Nm. apply s_rel0.
      - intros no. replace (s_events (if j_idle a1 then _ else _)) with (s_events X1) by now destruct (j_idle a1).
        rewrite Es, s_stop0. split; (intros [H|(m & d & jb & D1 & D2 & D3 & D4)]; [now left|right]).
        + destruct (eqb_spec m n) as [->|Nm].
          * exists n, d, (with_idle false b1). rewrite E2, eqb_refl. rewrite Lb in D2. injection D2 as <-.
            cbn. rewrite Bk. auto.
          * exists m, d, jb. rewrite E2. apply eqb_neq in Nm. rewrite Nm. auto.
        + rewrite E2 in D2. destruct (eqb_spec m n) as [->|Nm].
          * injection D2 as <-. cbn in D3. rewrite Bk in D3. exists n, d, b. auto.
          * exists m, d, jb. auto.
      - replace (s_events (if j_idle a1 then _ else _)) with (s_events X1) by now destruct (j_idle a1).
        eapply grown_trans; eauto.
      - replace (s_db (if j_idle a1 then _ else _)) with (s_db X1) by now destruct (j_idle a1). congruence. }
    destruct R as [(d & D1 & D2 & K & [[SN RS]|(RB & RS & ID)])|(D & RS & E & N & Rb & Bb & [SN|RB])].
    - (* reloaded, started now *)
      destruct SN as [F1 F2].
      assert (Va : is_alive a = true). { unfold is_alive. destruct (k_run _ _ _ K) as [-> _]. reflexivity. }
      assert (Vb : is_alive b = false). { unfold is_alive. now rewrite F1, F2. }
      rewrite Va, Vb in *. cbn [negb] in *. rewrite MX, RS in *.
      unfold jail_start in *. rewrite F1, T1 in *. cbn [with_threads j_actions] in *. rewrite F2, T2 in *.
      cbn [is_alive t_alive j_filter j_actions with_threads orb] in *.
      set (b1 := with_threads TRun TRun (with_threads TRun TNew b)) in *.
      refine (FIN (set_reload (ddel n (s_reload X)) X) (note (Started (j_no b)) (put n b1 B)) a b1 _ _ eq_refl eq_refl IX IB
        La _ _ _ _ (s_rb X B S) (s_qa X B S) (s_qb X B S) eq_refl eq_refl _ _ eq_refl _).
      + rewrite jail_of_note, jail_of_put, eqb_refl. reflexivity.
      + reflexivity.
      + intros m Nm. rewrite jail_of_note, jail_of_put. apply eqb_neq in Nm. now rewrite Nm.
      + intros m Nm. cbn [set_reload s_reload]. now apply dget_ddel_other.
      + reflexivity.
      + apply grown_refl.
      + left. exists d. split; [exact D1|]. split; [exact D2|]. split; [destruct K; constructor; auto|].
        right. split; [split; reflexivity|]. split; [|reflexivity]. cbn [set_reload s_reload]. apply dget_ddel_same. apply (s_ia X B S).
    - (* reloaded, and started already *)
      assert (Va : is_alive a = true). { unfold is_alive. destruct (k_run _ _ _ K) as [-> _]. reflexivity. }
      assert (Vb : is_alive b = true). { unfold is_alive. destruct RB as [-> _]. reflexivity. }
      rewrite Va, Vb in *. cbn [negb] in *. rewrite MX, RS in *.
      refine (FIN X B a b _ _ eq_refl eq_refl IX IB
        La Lb _ _ _ (s_rb X B S) (s_qa X B S) (s_qb X B S) eq_refl eq_refl _ _ eq_refl _); auto using grown_refl.
      + reflexivity.
      + left. exists d. split; [exact D1|]. split; [exact D2|]. split; [destruct K; constructor; auto|].
        right. split; [exact RB|]. split; [exact RS|reflexivity].
    - (* new, started now *)
      destruct SN as [F1 F2].
      assert (Vb : is_alive b = false). { unfold is_alive. now rewrite F1, F2. }
      assert (Va : is_alive a = false). { rewrite E. exact Vb. }
      assert (G1 : j_filter a = TNew) by (rewrite E; exact F1). assert (G2 : j_actions a = TNew) by (rewrite E; exact F2).
      rewrite Va, Vb in *. cbn [negb] in *.
      unfold jail_start in *. rewrite F1, G1, T1 in *. cbn [with_threads j_actions] in *. rewrite F2, G2, T2 in *.
      cbn [is_alive t_alive j_filter j_actions with_threads orb] in *.
      set (b1 := with_threads TRun TRun (with_threads TRun TNew b)) in *.
      set (a1 := with_threads TRun TRun (with_threads TRun TNew a)) in *.
      refine (FIN (note (Started (j_no a)) (put n a1 X)) (note (Started (j_no b)) (put n b1 B)) a1 b1 _ _ eq_refl eq_refl IX IB
        _ _ _ _ _ (s_rb X B S) (s_qa X B S) (s_qb X B S) eq_refl eq_refl _ _ eq_refl _).
      + rewrite jail_of_note, jail_of_put, eqb_refl. reflexivity.
      + rewrite jail_of_note, jail_of_put, eqb_refl. reflexivity.
      + intros m Nm. rewrite jail_of_note, jail_of_put. apply eqb_neq in Nm. now rewrite Nm.
      + intros m Nm. rewrite jail_of_note, jail_of_put. apply eqb_neq in Nm. now rewrite Nm.
      + reflexivity.
      + intros no. cbn [note s_events]. rewrite in_app_iff. cbn. intuition congruence.
      + cbn [note put set_jails s_events]. apply grown_one. intros no H. injection H as <-. exact N.
      + right. split; [exact D|]. split; [exact RS|]. split; [unfold a1, b1; rewrite E; reflexivity|]. split; [exact N|].
        split; [exact Rb|]. split; [exact Bb|]. right. split; reflexivity.
    - (* new, and started already *)
      assert (Vb : is_alive b = true). { unfold is_alive. destruct RB as [-> _]. reflexivity. }
      assert (Va : is_alive a = true). { rewrite E. exact Vb. }
      rewrite Va, Vb in *. cbn [negb] in *. rewrite MX, RS in *.
      refine (FIN X B a b _ _ eq_refl eq_refl IX IB
        La Lb _ _ _ (s_rb X B S) (s_qa X B S) (s_qb X B S) eq_refl eq_refl _ _ eq_refl _); auto using grown_refl.
      + reflexivity.
      + right. split; [exact D|]. split; [exact RS|]. split; [rewrite E; reflexivity|]. split; [exact N|].
        split; [exact Rb|]. split; [exact Bb|]. right. exact RB.
  Qed.

  Lemma db_add_ok n s : exists l, db_add w n s = (set_enabled l s, None).
  Proof.
    unfold db_add. destruct CW as (_ & DB & _). destruct (s_db s) eqn:E.
    - rewrite (proj1 (DB n)). eauto.
    - exists (s_enabled s). destruct s; reflexivity.
  Qed.

  Lemma sim_add n bk X B B' v : (d_of n = None \/ r_of n = Some true) -> sim X B ->
    done (add_jail w n bk B) (VTxt n) = (B', Good v) ->
    exists X' v', done (add_jail w n bk X) (VTxt n) = (X', Good v') /\ sim X' B'.
  Proof.
    intros OKN S.
    pose proof (inv_add w n bk X (s_ia X B S)) as IX. pose proof (inv_add w n bk B (s_ib X B S)) as IB.
    assert (EB : add_jail w n bk B = match jails_add w n bk B with (s2, Some e) => (s2, Some e) | (s2, None) => db_add w n s2 end).
    { unfold add_jail. rewrite (s_rb X B S). reflexivity. }
    rewrite EB in *. clear EB. unfold jails_add in *.
    destruct (dmem n (s_jails B)) eqn:MB; [discriminate|].
    assert (NB : jail_of B n = None). { unfold jail_of, dmem in *. destruct (dget n (s_jails B)); [discriminate|reflexivity]. }
    destruct (e_make w n bk) eqn:MK; [|discriminate].
    destruct (db_add_ok n (note (Created (s_next B) n) (set_next (s_next B + 1) (put n (new_jail (s_next B) bk) B)))) as (l & EB).
    rewrite EB in *. cbn [done]. intros HB. injection HB as <- _. cbn [fst] in IB.
    set (B1 := set_enabled l _) in *.
    assert (JB : forall m, jail_of B1 m = if eqb m n then Some (new_jail (s_next B) bk) else jail_of B m).
    { intros m. change (jail_of B1 m) with (jail_of (put n (new_jail (s_next B) bk) B) m). apply jail_of_put. }
    pose proof (s_rel X B S n) as R. rewrite NB in R. destruct R as [RA RR].
    assert (FIN : forall X', inv X' -> s_quiet X' = true -> s_next X <= s_next X' -> s_db X' = s_db X ->
      (forall m, m <> n -> jail_of X' m = jail_of X m /\ dget m (s_reload X') = dget m (s_reload X)) ->
      (exists a, jail_of X' n = Some a /\ pair_rel n (dget n (s_reload X')) a (new_jail (s_next B) bk)) ->
      (forall no, In (Stopped no) (s_events X') <-> In (Stopped no) (s_events X) \/
          exists d, d_of n = Some d /\ j_backend d <> bk /\ no = j_no d) ->
      grown (s_events X) (s_events X') -> sim X' B1).
    { intros X' Ix Q Nx Db O PR Es Et. pose proof S as SS. destruct S. constructor; auto; try lia.
      - intros m. rewrite JB. destruct (eqb_spec m n) as [->|Nm]; [exact PR|].
        destruct (O m Nm) as [-> ->]. apply s_rel0.
      - intros no. rewrite Es, s_stop0. split.
        + intros [[H|(m & d & jb & D1 & D2 & D3 & D4)]|(d & D1 & D2 & D3)]; [now left| |].
          * right. exists m, d, jb. rewrite JB. destruct (eqb_spec m n) as [->|Nm]; [congruence|auto].
          * right. exists n, d, (new_jail (s_next B) bk). rewrite JB, eqb_refl. auto.
        + intros [H|(m & d & jb & D1 & D2 & D3 & D4)]; [auto|]. rewrite JB in D2.
          destruct (eqb_spec m n) as [->|Nm]; [injection D2 as <-; right; exists d; auto|left; right; exists m, d, jb; auto].
      - eapply grown_trans; eauto.
      - congruence. }
    assert (NEW : forall Y, inv Y -> jail_of Y n = None -> dget n (s_reload Y) = None ->
       s_quiet Y = true -> s_next X <= s_next Y -> s_db Y = s_db X ->
       (forall m, m <> n -> jail_of Y m = jail_of X m /\ dget m (s_reload Y) = dget m (s_reload X)) ->
       (forall d, d_of n = Some d -> r_of n = Some true /\ j_backend d <> bk) ->
       (forall no, In (Stopped no) (s_events Y) <-> In (Stopped no) (s_events X) \/
          exists d, d_of n = Some d /\ j_backend d <> bk /\ no = j_no d) ->
       grown (s_events X) (s_events Y) ->
       exists X' v', done (match jails_add w n bk Y with (s2, Some e) => (s2, Some e) | (s2, None) => db_add w n s2 end) (VTxt n) = (X', Good v') /\ sim X' B1).
    { intros Y Iy Ny Ry Qy Nx Db O Dif Es Et.
      pose proof (inv_jails_add w n bk Y Iy) as I2. unfold jails_add in *.
      assert (My : dmem n (s_jails Y) = false). { unfold dmem. unfold jail_of in Ny. now rewrite Ny. }
      rewrite My, MK in *. cbn [fst] in I2.
      destruct (db_add_ok n (note (Created (s_next Y) n) (set_next (s_next Y + 1) (put n (new_jail (s_next Y) bk) Y)))) as (l' & EY).
      rewrite EY. cbn [done]. eexists _, _. split; [reflexivity|].
      assert (JY : forall m, jail_of (set_enabled l' (note (Created (s_next Y) n) (set_next (s_next Y + 1) (put n (new_jail (s_next Y) bk) Y)))) m
                = if eqb m n then Some (new_jail (s_next Y) bk) else jail_of Y m).
      { intros m. change (jail_of (put n (new_jail (s_next Y) bk) Y) m = if eqb m n then Some (new_jail (s_next Y) bk) else jail_of Y m). apply jail_of_put. }
      apply FIN.
      - now apply inv_enabled.
      - exact Qy.
      - cbn. lia.
      - exact Db.
      - intros m Nm. rewrite JY. pose proof Nm as Nm'. apply eqb_neq in Nm. rewrite Nm. exact (O m Nm').
      - exists (new_jail (s_next Y) bk). rewrite JY, eqb_refl. split; [reflexivity|]. right.
        split; [exact Dif|]. split; [exact Ry|]. split; [reflexivity|]. split; [cbn; pose proof (s_nx X B S); lia|].
        split; [reflexivity|]. split; [reflexivity|]. left. split; reflexivity.
      - intros no. cbn [set_enabled note set_next put set_jails s_events]. rewrite in_app_iff, Es. cbn. intuition congruence.
      - cbn [set_enabled note set_next put set_jails s_events]. eapply grown_trans; [exact Et|]. apply grown_one. discriminate. }
    destruct (d_of n) as [d|] eqn:Dn.
    - destruct OKN as [|OKN]; [discriminate|]. rewrite OKN in RR.
      assert (RA' : jail_of X n = Some d) by exact RA. clear RA.
      destruct (Hd n d Dn OKN) as (Hrun & Hf & Hi & Hp & Hl & Ho).
      unfold add_jail in *. rewrite RR in *. change (lookup X n) with (jail_of X n) in *. rewrite RA' in *.
      destruct (eqb_spec (j_backend d) bk) as [Eb|Nb].
      + destruct (db_add_ok n (set_reload (dset n false (s_reload X)) X)) as (l' & EX). rewrite EX in *. cbn [done fst] in *.
        eexists _, _. split; [reflexivity|]. apply FIN; auto.
        * apply S.
        * cbn; lia.
        * intros m Nm. split; [reflexivity|]. cbn [set_enabled set_reload s_reload]. now apply dget_dset_other.
        * exists d. split; [exact RA'|]. left. exists d. split; [exact Dn|]. split; [exact OKN|].
          split; [|left; split; [split; reflexivity|cbn [set_enabled set_reload s_reload]; apply dget_dset_same]].
          constructor; try reflexivity; auto; try (now cbn; symmetry).
          -- intros k. reflexivity.
          -- destruct Ho as (Ho1 & Ho2 & Ho3 & _). destruct (reads_files (j_backend d)) eqn:F.
             ++ exists (j_logs d). split; [exact Hl|]. split; [apply incl_refl|]. cbn. tauto.
             ++ destruct (Ho3 eq_refl). cbn. auto.
        * intros no. cbn. split; [auto|]. intros [H|(d' & H1 & H2 & _)]; [exact H|]. congruence.
        * apply grown_refl.
      + destruct (del_jail_ok w n true X d (s_ia X B S) RA') as (X1 & E1 & J1 & (R1a & R1b & R1c & R1d) & V1 & B1').
        { intros _. destruct CW as (_ & DB & _). apply DB. }
        rewrite E1 in *. pose proof (inv_del w n true true X (s_ia X B S)) as I1. rewrite E1 in I1. cbn [fst] in I1.
        apply NEW.
        * apply inv_reload; [apply dwf_ddel, I1|exact I1].
        * change (jail_of X1 n = None). now rewrite J1, eqb_refl.
        * cbn [set_reload s_reload]. apply dget_ddel_same, I1.
        * cbn. rewrite R1b. apply S.
        * cbn. lia.
        * exact R1d.
        * intros m Nm. split; [change (jail_of X1 m = jail_of X m); rewrite J1; apply eqb_neq in Nm; now rewrite Nm|].
          cbn [set_reload s_reload]. rewrite R1a. now apply dget_ddel_other.
        * intros d' Hd'. injection Hd' as <-. auto.
        * intros no. cbn [set_reload s_events]. rewrite V1, in_app_iff. cbn. split.
          -- intros [H|[H|[]]]; [auto|]. right. exists d. injection H as <-. auto.
          -- intros [H|(d' & H1 & H2 & ->)]; [auto|]. injection H1 as <-. auto.
        * cbn [set_reload s_events]. rewrite V1. apply grown_one. discriminate.
    - assert (RA' : jail_of X n = None) by exact RA. clear RA.
      assert (Rn : r_of n = None).
      { destruct (r_of n) eqn:E; [|reflexivity]. destruct (Hr0 n) as [_ (d & D)]; [congruence|]. congruence. }
      assert (EX : add_jail w n bk X = match jails_add w n bk X with (s2, Some e) => (s2, Some e) | (s2, None) => db_add w n s2 end).
      { unfold add_jail. rewrite RR, Rn. reflexivity. }
      rewrite EX in *. apply NEW; auto; try lia; try (apply S).
      + congruence.
      + discriminate.
      + intros no. split; [auto|]. intros [H|(d' & H1 & _)]; [exact H|]. discriminate.
      + apply grown_refl.
  Qed.

  Lemma sim_command c X B B' v : config_command c ->
    (forall n r, c = A (T "add" :: T n :: r) -> d_of n = None \/ r_of n = Some true) ->
    sim X B -> handler w c B = (B', Good v) ->
    exists X' v', handler w c X = (X', Good v') /\ sim X' B'.
  Proof.
    intros [(n & r & ->)|[(n & r & ->)|[(m & n & k & vs & -> & M & K)|[(r & ->)|(n & x & -> & SS)]]]] OKN S.
    - change (handler w (A (T "add" :: T n :: r)) ?s) with
        (if eqb n all_jails then (s, Bad EReserved)
         else match r with [] => done (add_jail w n "auto" s) (VTxt n) | T b :: _ => done (add_jail w n b s) (VTxt n) | A _ :: _ => (s, Bad EType) end).
      destruct (eqb n all_jails); [discriminate|]. specialize (OKN n r eq_refl).
      destruct r as [|[b|] r]; [now apply sim_add|now apply sim_add|discriminate].
    - change (handler w (A (T "start" :: T n :: r)) ?s) with (done (start_jail w n s) VNone). now apply sim_start.
    - destruct M as [-> | ->].
      + change (handler w (A (T "set" :: T n :: T k :: vs)) ?s) with (command_set w false (T n :: T k :: vs) s). now apply sim_set.
      + change (handler w (A (T "multi-set" :: T n :: T k :: vs)) ?s) with (command_set w true (T n :: T k :: vs) s). now apply sim_set.
    - change (handler w (A (T "config-error" :: r)) ?s) with (s, e_other w (T "config-error" :: r)). now apply sim_same.
    - change (handler w (A [T "set"; T n; x]) ?s) with (if inb n server_settings then (s, e_other w [T n; x]) else match x with T k => set_key w false n k [] s | A _ => (s, Bad EType) end).
      apply inb_In in SS. rewrite SS. now apply sim_same.
  Qed.

  Lemma sim_stream cs : Forall config_command cs ->
    (forall n, In n (added cs) -> d_of n = None \/ r_of n = Some true) ->
    forall X B B', sim X B -> stream w cs B = (B', None) ->
    exists X', stream w cs X = (X', None) /\ sim X' B'.
  Proof.
    induction 1 as [|c r C F IH]; intros OKN X B B' S E.
    - injection E as <-. exists X. auto.
    - rewrite stream_cons in *. destruct (handler w c B) as [B1 [v|e]] eqn:EB; [|discriminate].
      destruct (sim_command c X B B1 v C) as (X1 & v' & EX & S1); auto.
      { intros n r' ->. apply OKN. cbn. auto. }
      rewrite EX. apply (IH (fun n H => OKN n (in_or_app _ _ _ (or_intror H))) X1 B1 B' S1 E).
  Qed.
End Sim.
